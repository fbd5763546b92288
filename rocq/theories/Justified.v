(** Every statement of a diff is justified by a difference of the two schemas. *)
From Coq Require Import Lia Permutation.
From Verif Require Import GoStr Token Ast Parser Diff Db DbFacts AppendFacts DiffTable DiffPair DiffSound
  Tidy TidyFacts DiffSame Reconcile ReconcileFacts Honest DiffSpec.

Lemma neqs_neq : forall a b, neqs a b = true -> a <> b.
Proof. intros a b H E. subst. rewrite neqs_refl in H. discriminate H. Qed.

Lemma nodup_map_filter : forall X Y (f : X -> Y) (g : X -> bool) l, NoDup (map f l) -> NoDup (map f (filter g l)).
Proof.
  intros X Y f g. induction l as [|x l IH]; intro H; [constructor|]. cbn [map] in H. inversion H; subst. cbn [filter].
  destruct (g x); [|apply IH; assumption]. cbn [map]. constructor; [|apply IH; assumption].
  intro F. apply in_map_iff in F. destruct F as [y [F1 F2]]. apply filter_In in F2. destruct F2 as [F2 _]. apply H2. rewrite <- F1. apply in_map. exact F2.
Qed.

(** ** Where the statements of a diff come from *)
Lemma map_opt_in : forall X Y (f : X -> option Y) l r y, map_opt f l = Some r -> In y r -> exists x, In x l /\ f x = Some y.
Proof.
  intros X Y f. induction l as [|x l IH]; intros r y H Hy; cbn [map_opt] in H.
  - inversion H; subst. destruct Hy.
  - destruct (f x) eqn:E; [|discriminate H]. destruct (map_opt f l) eqn:F; [|discriminate H]. inversion H; subst.
    destruct Hy as [Hy|Hy].
    + subst. exists x. split; [left; reflexivity|exact E].
    + destruct (IH _ _ eq_refl Hy) as [z [Z1 Z2]]. exists z. split; [right; exact Z1|exact Z2].
Qed.

Lemma diff_stmts_in : forall d srt sdiff A B l s, diff_stmts d srt sdiff B A = Ok l -> In s l ->
  exists x l', In x B /\ diff_stmt d srt sdiff x A = Ok l' /\ In s l'.
Proof.
  intros d srt sdiff A. induction B as [|x r IH]; intros l s H Hs; cbn [diff_stmts] in H.
  - inversion H; subst. destruct Hs.
  - destruct (diff_stmt d srt sdiff x A) as [lx| | |] eqn:E; cbn [bind] in H; try discriminate H.
    destruct (diff_stmts d srt sdiff r A) as [lr| | |] eqn:F; cbn [bind] in H; try discriminate H. inversion H; subst.
    apply in_app_or in Hs. destruct Hs as [Hs|Hs].
    + exists x, lx. split; [left; reflexivity|]. split; assumption.
    + destruct (IH _ _ eq_refl Hs) as [y [l' [H1 [H2 H3]]]]. exists y, l'. split; [right; exact H1|]. split; assumption.
Qed.

Lemma diff_parts : forall d srt sdiff B A l, diff d srt sdiff (Some B) (Some A) = DOk l ->
  exists drops creates changes, map_opt drop_stmt (only_left_stmts B A) = Some drops /\
    map_opt create_stmt (only_left_stmts A B) = Some creates /\ diff_stmts d srt sdiff B A = Ok changes /\
    l = (drops ++ creates ++ changes)%list.
Proof.
  intros d srt sdiff B A l H. unfold diff, diff_ddl in H. destruct (eqs _ _); [discriminate H|].
  destruct (map_opt drop_stmt _) as [drops|]; [|discriminate H]. destruct (map_opt create_stmt _) as [creates|]; [|discriminate H].
  destruct (diff_stmts d srt sdiff B A) as [changes| | |]; try discriminate H.
  exists drops, creates, changes. repeat split. destruct (drops ++ creates ++ changes)%list; [discriminate H|]. inversion H. reflexivity.
Qed.

Lemma create_stmts_id : forall l r, map_opt create_stmt l = Some r -> r = l.
Proof.
  induction l as [|x l IH]; intros r H; cbn [map_opt] in H; [inversion H; reflexivity|].
  destruct x; cbn [create_stmt] in H; try discriminate H; destruct (map_opt create_stmt l); try discriminate H; inversion H; f_equal; apply IH; reflexivity.
Qed.

Lemma only_left_in : forall B A s, In s (only_left_stmts B A) <-> In s B /\ find_stmt s A = None.
Proof. intros B A s. unfold only_left_stmts. rewrite filter_In. destruct (find_stmt s A); intuition congruence. Qed.

Lemma diff_in : forall d srt sdiff B A l s, diff d srt sdiff (Some B) (Some A) = DOk l -> In s l ->
  (exists x, In x B /\ find_stmt x A = None /\ drop_stmt x = Some s) \/
  (In s A /\ find_stmt s B = None /\ is_create s = true) \/
  (exists x l', In x B /\ diff_stmt d srt sdiff x A = Ok l' /\ In s l').
Proof.
  intros d srt sdiff B A l s H Hs. destruct (diff_parts _ _ _ _ _ _ H) as [dr [cr [ch [H1 [H2 [H3 H4]]]]]]. subst.
  apply in_app_or in Hs. destruct Hs as [Hs|Hs]; [|apply in_app_or in Hs; destruct Hs as [Hs|Hs]].
  - left. destruct (map_opt_in _ _ _ _ _ _ H1 Hs) as [x [X1 X2]]. apply only_left_in in X1. exists x. destruct X1. auto.
  - right; left. destruct (map_opt_in _ _ _ _ _ _ H2 Hs) as [x [X1 X2]]. apply only_left_in in X1. destruct X1 as [X1 X3].
    destruct x; cbn [create_stmt] in X2; try discriminate X2; inversion X2; subst; split; auto.
  - right; right. exact (diff_stmts_in _ _ _ _ _ _ _ H3 Hs).
Qed.

Section Table.
Variable d : dialect.
Variable srt : list constraint -> list constraint.
Variable sdiff : string -> string -> string.
Hypothesis Hsrt : srt_ok srt.
Variables tb ta : create_table.
Hypothesis Tb : tidy_table d tb = true.
Hypothesis Ta : tidy_table d ta = true.
Hypothesis Hn : qname (ct_name tb) = qname (ct_name ta).

Lemma added_in : forall added x, only_left_constraints d srt (ct_constraints ta) (ct_constraints tb) = Ok added -> In x added ->
  In x (ct_constraints ta) /\ find_constraint (con_key x) (ct_constraints tb) = None.
Proof.
  intros added x H Hx. unfold only_left_constraints in H.
  set (L := filter (fun c => match find_constraint (con_key c) (ct_constraints tb) with None => true | Some _ => false end) (ct_constraints ta)) in H.
  pose proof (tidy_table_spec _ _ Ta) as S.
  assert (N : forallb named ([] ++ L)%list = true).
  { rewrite forallb_forall. intros c Hc. apply filter_In in Hc. destruct Hc as [Hc _]. apply (tidy_con_named d). apply (ti_con _ _ S). exact Hc. }
  assert (U : NoDup (map con_key ([] ++ L)%list)).
  { apply nodup_map_filter. exact (ti_nodup _ _ S). }
  destruct (append_all d srt Hsrt L [] N U) as [cs [E P]]. rewrite E in H. inversion H; subst. apply (Permutation_in _ P) in Hx.
  cbn [app] in Hx. apply filter_In in Hx. destruct Hx as [H1 H2]. split; [exact H1|]. destruct (find_constraint _ _); [discriminate H2|reflexivity].
Qed.

Lemma find_constraint_some : forall n cs c, find_constraint n cs = Some c -> In c cs /\ con_label c = n.
Proof.
  intros n cs c H. apply find_some in H. destruct H as [H1 H2]. split; [exact H1|]. rewrite con_label_key. apply String.eqb_eq. exact H2.
Qed.
Lemma find_column_some : forall n cs c, find_column n cs = Some c -> In c cs /\ id_name (c_name c) = n.
Proof.
  intros n cs c H. apply find_some in H. destruct H as [H1 H2]. split; [exact H1|]. apply String.eqb_eq. exact H2.
Qed.

Lemma con_value_same : forall c, con_value d (ct_name tb) c = con_value d (ct_name ta) c.
Proof. intro c. destruct c; cbn [con_value]; try reflexivity. unfold sem_intable. rewrite Hn. reflexivity. Qed.

Lemma changed_con : forall b a, In b (ct_constraints tb) -> In a (ct_constraints ta) -> con_label b = con_label a ->
  constraint_diff d b <> constraint_diff d a -> con_value d (ct_name tb) b <> con_value d (ct_name ta) a.
Proof.
  intros b a Hb Ha Hl D E. apply D. rewrite con_value_same, !con_value_cval in E. inversion E as [E'].
  pose proof (tidy_table_spec _ _ Ta) as Sa. pose proof (tidy_table_spec _ _ Tb) as Sb.
  apply (constraint_diff_eq d (ct_name ta)); [apply (ti_con _ _ Sb); exact Hb|apply (ti_con _ _ Sa); exact Ha| |exact E'].
  rewrite <- !con_label_key. exact Hl.
Qed.

Definition just (n : objname) (s : stmt) : Prop :=
  match s with
  | AlterTable _ m act => m = n /\ action_justified d tb ta act
  | CreateIndex i => exists c, con_new d tb ta c /\ inner_name d ta c = Some (qname (cx_name i)) /\
                               con_value d (ct_name ta) c = Some (VIdx (sem_index d i))
  | DropIndex _ _ m => exists c, con_old d tb ta c /\ inner_name d tb c = Some (qname m)
  | _ => False
  end.

Lemma common_column_just : forall n b a s, In b (ct_columns tb) -> In a (ct_columns ta) -> id_name (c_name b) = id_name (c_name a) ->
  In s (diff_common_column d sdiff n b a) -> just n s.
Proof.
  intros n b a s Hb Ha E Hs.
  pose proof (tidy_table_spec _ _ Ta) as Sa. pose proof (tidy_table_spec _ _ Tb) as Sb.
  pose proof (ti_col _ _ Sb _ Hb) as Db. pose proof (ti_col _ _ Sa _ Ha) as Da.
  assert (CC : forall P : column -> column -> Prop, P b a -> column_change tb ta (c_name a) P) by (intros P HP; exists b, a; auto).
  assert (Cdef : forall cmt, In s (diff_default d cmt n b a) -> just n s).
  { intros cmt H. unfold diff_default in H.
    destruct (is_some (c_default b) && negb (is_some (c_default a))) eqn:E1.
    - destruct H as [H|[]]. subst s. split; [reflexivity|]. apply CC. destruct (c_default b) as [[l|]|]; try discriminate E1; try (exfalso; apply Db; reflexivity).
      destruct (c_default a); [discriminate E1|]. split; [discriminate|reflexivity].
    - destruct (is_some (c_default a) && _) eqn:E2; [|destruct H]. destruct H as [H|[]]. subst s. split; [reflexivity|]. apply CC.
      apply andb_true_iff in E2. destruct E2 as [_ E2]. apply neqs_neq in E2. split; [|reflexivity]. intro F. apply E2. apply default_diff_eq. exact F. }
  assert (Cnn : forall cmt, In s (diff_notnull cmt n b a) -> just n s).
  { intros cmt H. unfold diff_notnull in H. destruct (c_notnull b) eqn:Nb, (c_notnull a) eqn:Na; cbn [andb negb] in H; try destruct H as [H|[]]; try destruct H;
    split; try reflexivity; apply CC; split; assumption. }
  assert (Copt : forall cmt, d = Sp -> In s (diff_options cmt n b a) -> just n s).
  { intros cmt HSp H. unfold diff_options in H.
    destruct (is_some (c_options b) && negb (is_some (c_options a))) eqn:E1.
    - destruct H as [H|[]]. subst s. split; [reflexivity|]. apply CC. destruct (c_options b); [|discriminate E1].
      destruct (c_options a); [discriminate E1|]. split; [exact HSp|]. split; [discriminate|reflexivity].
    - destruct (is_some (c_options a) && _) eqn:E2; [|destruct H]. destruct H as [H|[]]. subst s. split; [reflexivity|]. apply CC.
      apply andb_true_iff in E2. destruct E2 as [_ E2]. apply neqs_neq in E2. split; [exact HSp|]. split; [|reflexivity]. intro F. apply E2. apply options_eq. exact F. }
  assert (Ty : neqs (datatype_diff (c_type b)) (datatype_diff (c_type a)) = true -> type_of b <> type_of a).
  { intros H F. apply neqs_neq in H. apply H. inversion F. apply datatype_diff_eq; assumption. }
  assert (My_ : d = My -> diff_common_column d sdiff n b a <> [] -> sem_col d b <> sem_col d a).
  { intros _ H F. apply H. apply common_column_same; assumption. }
  assert (Ne : diff_common_column d sdiff n b a <> []) by (intro F; rewrite F in Hs; destruct Hs).
  unfold diff_common_column in Hs. set (cmt := sdiff _ _) in *. destruct d eqn:Ed.
  - apply in_app_or in Hs. destruct Hs as [Hs|Hs].
    + destruct (neqs _ _) eqn:E1; [|destruct Hs]. destruct Hs as [Hs|[]]. subst s. split; [reflexivity|]. apply CC. split; [apply Ty; reflexivity|reflexivity].
    + apply in_app_or in Hs. destruct Hs; [eapply Cdef|eapply Cnn]; eassumption.
  - apply in_app_or in Hs. destruct Hs as [Hs|Hs].
    + destruct (neqs _ _) eqn:E1; [|destruct Hs]. destruct Hs as [Hs|[]]. subst s. split; [reflexivity|]. apply CC. split; [apply Ty; reflexivity|reflexivity].
    + apply in_app_or in Hs. destruct Hs; [eapply Cdef|eapply Cnn]; eassumption.
  - apply in_app_or in Hs. destruct Hs as [Hs|Hs].
    + match type of Hs with In _ (if ?c then _ else _) => destruct c end; [|destruct Hs]. destruct Hs as [Hs|[]]. subst s.
      split; [reflexivity|]. apply CC. split; [rewrite Ed; apply My_; [reflexivity|exact Ne]|reflexivity].
    + destruct (is_some (c_default b) && negb (is_some (c_default a))) eqn:E1; [|destruct Hs]. destruct Hs as [H|[]].
      subst s. split; [reflexivity|]. apply CC. destruct (c_default b) as [[l|]|]; try discriminate E1; try (exfalso; apply Db; reflexivity).
      destruct (c_default a); [discriminate E1|]. split; [discriminate|reflexivity].
  - apply in_app_or in Hs. destruct Hs as [Hs|Hs].
    + match type of Hs with In _ (if ?c then _ else _) => destruct c eqn:E1 end; [|destruct Hs]. destruct Hs as [Hs|[]]. subst s.
      split; [reflexivity|]. apply CC. split; [|split; reflexivity]. apply orb_true_iff in E1. destruct E1 as [E1|E1].
      * left. apply Ty. exact E1.
      * right. intro F. rewrite F, Bool.eqb_reflx in E1. discriminate E1.
    + apply in_app_or in Hs. destruct Hs; [eapply Cdef|eapply Copt; [reflexivity|]]; eassumption.
Qed.

Lemma columns_just : forall n s, In s (diff_columns d sdiff n (ct_columns tb) (ct_columns ta)) -> just n s.
Proof.
  intros n s Hs. unfold diff_columns in Hs. apply in_app_or in Hs. destruct Hs as [Hs|Hs].
  - apply in_flat_map in Hs. destruct Hs as [b [Hb Hs]]. unfold diff_before_column in Hs.
    destruct (find_column (id_name (c_name b)) (ct_columns ta)) as [a|] eqn:E.
    + apply find_column_some in E. destruct E as [E1 E2]. apply (common_column_just n b a); auto.
    + destruct (keep_hidden d b); [destruct Hs|]. destruct Hs as [Hs|[]]. subst s. split; [reflexivity|]. split.
      * unfold col_names. apply (in_map (fun c => id_name (c_name c))). exact Hb.
      * apply memb_false. apply find_column_memb. exact E.
  - apply in_map_iff in Hs. destruct Hs as [a [Hs Ha]]. subst s. unfold only_left_columns in Ha. apply filter_In in Ha. destruct Ha as [Ha E].
    split; [reflexivity|]. split; [exact Ha|]. apply memb_false. apply find_column_memb. destruct (find_column _ _); [discriminate E|reflexivity].
Qed.

Lemma index_tidy : forall t c, tidy_table d t = true -> In c (ct_constraints t) -> is_index d c = is_idx c.
Proof.
  intros t c T Hc. pose proof (ti_con _ _ (tidy_table_spec _ _ T) c Hc) as H. unfold tidy_con in H. apply andb_true_iff in H. destruct H as [_ H].
  destruct d, c; try reflexivity; discriminate H.
Qed.

Lemma inner_name_drop : forall t b, tidy_table d t = true -> In b (ct_constraints t) -> is_index d b = true ->
  inner_name d t b = Some (qname (index_objname d (on_schema (ct_name t)) (con_ident b))).
Proof.
  intros t b T Hb Hi. pose proof (ti_con _ _ (tidy_table_spec _ _ T) b Hb) as H. unfold tidy_con in H. apply andb_true_iff in H. destruct H as [H _].
  unfold inner_name, inner_index, index_objname, con_ident. destruct b as [| | |o ? ? ? ?|]; try (destruct d; discriminate Hi).
  destruct o; [|discriminate H]. destruct d; reflexivity || discriminate Hi.
Qed.

Lemma index_create_just : forall cmt a n, n = ct_name ta -> In a (ct_constraints ta) -> is_index d a = true -> con_new d tb ta a ->
  just n (index_of_constraint d cmt n a).
Proof.
  intros cmt a n E Ha Hi Hnew. subst n. pose proof (ti_con _ _ (tidy_table_spec _ _ Ta) a Ha) as T. unfold tidy_con in T.
  pose proof (inner_name_drop ta a Ta Ha Hi) as I.
  destruct a as [| | |o u pre cols post|]; try (destruct d; discriminate Hi). cbn [index_of_constraint just]. exists (CIndex o u pre cols post).
  split; [exact Hnew|]. split; [exact I|]. cbn [con_value]. unfold sem_intable, sem_index. cbn [cx_table cx_unique cx_columns cx_using cx_pre cx_post].
  destruct d; try reflexivity.
Qed.

(** A constraint turns into an in-table index of the same name, or vice versa. *)
Definition swapped (n : objname) (s : stmt) : Prop :=
  exists b a, In b (ct_constraints tb) /\ In a (ct_constraints ta) /\ con_label b = con_label a /\
    is_inner_index b <> is_inner_index a /\
    match s with
    | AlterTable _ m (DropConstraint x) => m = n /\ x = con_name b /\ is_inner_index b = true
    | DropIndex _ _ m => inner_name d ta a = Some (qname m)
    | _ => False
    end.

Lemma schema_names : option_map id_name (on_schema (ct_name tb)) = option_map id_name (on_schema (ct_name ta)).
Proof.
  pose proof (ti_name _ _ (tidy_table_spec _ _ Tb)) as X. pose proof (ti_name _ _ (tidy_table_spec _ _ Ta)) as Y.
  apply (qname_schema _ _ X Y Hn).
Qed.

Lemma tables_loose : forall nv l s, diff_tables d srt sdiff nv tb ta = Ok l -> In s l -> just (ct_name ta) s \/ swapped (ct_name ta) s.
Proof.
  intros nv l s H Hs. unfold diff_tables in H.
  destruct (only_left_constraints d srt (ct_constraints ta) (ct_constraints tb)) as [added| | |] eqn:Eadd; cbn [bind] in H; try discriminate H.
  assert (R : renamed (ct_name tb) (ct_name ta) = false).
  { unfold renamed. rewrite (objname_diff_qname (ct_name tb)), (objname_diff_qname (ct_name ta)), Hn. apply neqs_refl. }
  assert (F : final_name (ct_name tb) (ct_name ta) = ct_name ta) by (unfold final_name; rewrite R; reflexivity).
  rewrite F in H. unfold diff_rename in H. rewrite R in H. cbn [app] in H. inversion H; subst l. clear H.
  apply in_app_or in Hs. destruct Hs as [Hs|Hs].
  { left. apply in_flat_map in Hs. destruct Hs as [b [Hb Hs]]. unfold drop_gone_constraint in Hs.
    destruct (find_constraint (con_key b) (ct_constraints ta)) eqn:E; [destruct Hs|].
    assert (O : con_old d tb ta b).
    { split; [exact Hb|]. left. apply memb_false. apply find_constraint_memb. rewrite con_label_key. exact E. }
    destruct (is_index d b) eqn:I; destruct Hs as [Hs|[]]; subst s.
    - exists b. split; [exact O|]. apply inner_name_drop; assumption.
    - split; [reflexivity|]. exists b. split; [reflexivity|]. split; [|exact O]. rewrite is_inner_idx, <- (index_tidy tb b Tb Hb). exact I. }
  apply in_app_or in Hs. destruct Hs as [Hs|Hs]; [left; apply columns_just; exact Hs|].
  apply in_app_or in Hs. destruct Hs as [Hs|Hs].
  { apply in_flat_map in Hs. destruct Hs as [b [Hb Hs]]. unfold change_constraint in Hs.
    destruct (find_constraint (con_key b) (ct_constraints ta)) as [a|] eqn:E; [|destruct Hs].
    destruct (neqs _ _) eqn:N; [|destruct Hs]. apply neqs_neq in N. apply find_constraint_some in E. destruct E as [Ha E].
    rewrite <- con_label_key in E. pose proof (changed_con b a Hb Ha (eq_sym E) N) as V.
    assert (O : con_old d tb ta b) by (split; [exact Hb|]; right; exists a; auto).
    assert (W : con_new d tb ta a) by (split; [exact Ha|]; right; exists b; auto).
    destruct (Bool.bool_dec (is_inner_index b) (is_inner_index a)) as [K|K].
    2:{ pose proof (index_tidy ta a Ta Ha) as Ia. rewrite <- is_inner_idx in Ia.
        destruct (is_index d a) eqn:I; destruct Hs as [Hs|[Hs|[]]]; subst s.
        - right. exists b, a. split; [exact Hb|]. split; [exact Ha|]. split; [auto|]. split; [exact K|].
          rewrite (inner_name_drop ta a Ta Ha I). f_equal. pose proof schema_names as Sn. unfold index_objname, qname.
          assert (En : id_name (con_ident a) = id_name (con_ident b)) by (rewrite !con_label_key in E; exact E).
          destruct d; cbn [on_schema on_name]; try exact En.
          destruct (on_schema (ct_name tb)), (on_schema (ct_name ta)); cbn [option_map] in Sn; try discriminate Sn; [|exact En].
          inversion Sn as [Sn']. rewrite Sn', En. reflexivity.
        - left. apply index_create_just; auto.
        - right. exists b, a. split; [exact Hb|]. split; [exact Ha|]. split; [auto|]. split; [exact K|]. split; [reflexivity|]. split; [reflexivity|].
          destruct (is_inner_index b); [reflexivity|]. exfalso. apply K. exact Ia.
        - left. split; [reflexivity|]. split; [auto|exact W]. }
    left. rewrite (is_inner_idx b), (is_inner_idx a) in K.
    destruct (is_index d a) eqn:I; destruct Hs as [Hs|[Hs|[]]]; subst s.
    - exists b. split; [exact O|]. apply inner_name_drop; try assumption. rewrite (index_tidy tb b Tb Hb), K, <- (index_tidy ta a Ta Ha). exact I.
    - apply index_create_just; auto.
    - split; [reflexivity|]. exists b. split; [reflexivity|]. split; [|exact O]. rewrite is_inner_idx, K, <- (index_tidy ta a Ta Ha). exact I.
    - split; [reflexivity|]. split; [|exact W]. rewrite is_inner_idx, <- (index_tidy ta a Ta Ha). exact I. }
  apply in_app_or in Hs. destruct Hs as [Hs|Hs].
  { left. apply in_map_iff in Hs. destruct Hs as [a [Hs Hadd]]. destruct (added_in _ _ Eadd Hadd) as [Ha E].
    assert (W : con_new d tb ta a).
    { split; [exact Ha|]. left. apply memb_false. apply find_constraint_memb. rewrite con_label_key. exact E. }
    subst s. unfold add_constraint. destruct (is_index d a) eqn:I.
    - apply index_create_just; auto.
    - split; [reflexivity|]. split; [|exact W]. rewrite is_inner_idx, <- (index_tidy ta a Ta Ha). exact I. }
  pose proof (tidy_table_spec _ _ Ta) as Sa. pose proof (tidy_table_spec _ _ Tb) as Sb.
  assert (OV : forall o, In o (ct_options tb) \/ In o (ct_options ta) -> present (o_value o) = true).
  { intros o [Ho|Ho]; [pose proof (ti_opt _ _ Sb o Ho) as X|pose proof (ti_opt _ _ Sa o Ho) as X]; unfold tidy_opt in X; apply andb_true_iff in X; apply X. }
  apply in_app_or in Hs. destruct Hs as [Hs|Hs].
  { left. unfold diff_table_options in Hs. destruct d eqn:Ed; try (destruct Hs; fail).
    assert (OC : forall o, In o (ct_options tb) \/ In o (ct_options ta) -> upper_auto o = counter_option o).
    { intros o [Ho|Ho]; [pose proof (ti_opt _ _ Sb o Ho) as X|pose proof (ti_opt _ _ Sa o Ho) as X]; unfold tidy_opt in X; apply andb_true_iff in X;
      destruct X as [_ X]; apply bool_eqb_eq in X; exact X. }
    rewrite <- Ed in *. apply in_app_or in Hs. destruct Hs as [Hs|Hs].
    - apply in_flat_map in Hs. destruct Hs as [b [Hb Hs]]. destruct (is_auto_increment b) eqn:Au; [destruct Hs|].
      destruct (find_option (o_name b) (ct_options ta)) as [a|] eqn:E; [|destruct Hs]. destruct (neqs _ _) eqn:N; [|destruct Hs].
      destruct Hs as [Hs|[]]. subst s. apply neqs_neq in N. apply find_some in E. destruct E as [Ha E]. apply String.eqb_eq in E.
      split; [reflexivity|]. exists a. repeat (split; [solve [auto]|]).
      split; [rewrite <- (OC a (or_intror Ha)); unfold upper_auto; rewrite E; exact Au|]. right. exists b. split; [exact Hb|]. split; [auto|].
      intro G. apply N. apply option_diff_eq; auto.
    - apply in_map_iff in Hs. destruct Hs as [a [Hs Ha]]. subst s. apply filter_In in Ha. destruct Ha as [Ha Au]. unfold only_left_options in Ha.
      apply filter_In in Ha. destruct Ha as [Ha E]. split; [reflexivity|]. exists a. repeat (split; [solve [auto]|]).
      split; [rewrite <- (OC a (or_intror Ha)); apply negb_true_iff; exact Au|]. left.
      intro G. apply in_map_iff in G. destruct G as [b [G1 G2]]. destruct (find_option (o_name a) (ct_options tb)) eqn:Fo; [discriminate E|].
      apply (find_none _ _ Fo) in G2. cbv beta in G2. rewrite G1 in G2. unfold eqs in G2. rewrite String.eqb_refl in G2. discriminate G2. }
  { left. pose proof (ti_row _ _ Sa) as Ra. pose proof (ti_row _ _ Sb) as Rb.
    unfold diff_row_deletion in Hs. destruct d eqn:Ed; try (destruct Hs; fail). rewrite <- Ed in *. destruct (neqs _ _) eqn:N; [|destruct Hs].
    apply neqs_neq in N. destruct (ct_rowdel tb) as [b|] eqn:Eb, (ct_rowdel ta) as [a|] eqn:Ea; try (destruct Hs; fail); destruct Hs as [Hs|[]]; subst s;
    (split; [reflexivity|]); cbn [action_justified]; rewrite ?Eb, ?Ea.
    - exists b. split; [reflexivity|]. split; [reflexivity|]. intro G. apply N. unfold ooption_diff, tidy_row in *. rewrite Ed in Ra, Rb.
      apply andb_true_iff in Ra. apply andb_true_iff in Rb. destruct Ra as [R1 R2], Rb as [R3 R4]. apply String.eqb_eq in R1. apply String.eqb_eq in R3.
      apply option_diff_eq; try assumption. congruence.
    - split; [discriminate|reflexivity].
    - split; reflexivity. }
Qed.

Lemma tables_just : forall nv l s,
  (forall x y, In x (ct_constraints tb) -> In y (ct_constraints ta) -> con_label x = con_label y -> is_inner_index x = is_inner_index y) ->
  diff_tables d srt sdiff nv tb ta = Ok l -> In s l -> just (ct_name ta) s.
Proof.
  intros nv l s Hk H Hs. destruct (tables_loose nv l s H Hs) as [J|[b [a [Hb [Ha [E [K _]]]]]]]; [exact J|].
  exfalso. apply K. apply Hk; assumption.
Qed.
End Table.

Theorem diff_loose : forall d srt sdiff B A l s, srt_ok srt -> tidy d B = true -> tidy d A = true ->
  diff d srt sdiff (Some B) (Some A) = DOk l -> In s l ->
  stmt_justified d B A s \/ exists tb ta, table_pair B A tb ta /\ swapped d tb ta (ct_name ta) s.
Proof.
  intros d srt sdiff B A l s Hsrt TB TA H Hs.
  assert (Nt : forall t X, tidy d X = true -> find_stmt (CreateTable t) X = None -> ~ has_table (table_name t) X).
  { intros t X _ F G. apply in_map_iff in G. destruct G as [u [G1 G2]]. apply in_tables in G2. apply (find_none _ _ F) in G2. cbv beta in G2.
    cbn [same_type andb] in G2. rewrite stmt_name_table, stmt_name_table in G2. unfold table_name in G1. rewrite G1 in G2. unfold eqs in G2.
    rewrite String.eqb_refl in G2. discriminate G2. }
  assert (Ni : forall t X, tidy d X = true -> find_stmt (CreateIndex t) X = None -> ~ has_index (qname (cx_name t)) X).
  { intros t X _ F G. apply in_map_iff in G. destruct G as [u [G1 G2]]. apply in_indexes in G2. apply (find_none _ _ F) in G2. cbv beta in G2.
    cbn [same_type andb] in G2. rewrite stmt_name_index, stmt_name_index in G2. rewrite G1 in G2. unfold eqs in G2.
    rewrite String.eqb_refl in G2. discriminate G2. }
  assert (Ht : forall t X, In (CreateTable t) X -> has_table (table_name t) X).
  { intros t X HX. apply in_map. apply in_tables. exact HX. }
  assert (Hi : forall t X, In (CreateIndex t) X -> has_index (qname (cx_name t)) X).
  { intros t X HX. apply (in_map (fun i => qname (cx_name i))). apply in_indexes. exact HX. }
  destruct (diff_in _ _ _ _ _ _ _ H Hs) as [[x [X1 [X2 X3]]]|[[X1 [X2 X3]]|[x [l' [X1 [X2 X3]]]]]].
  - left. pose proof (tidy_in _ _ _ TB X1) as T. destruct x; cbn [drop_stmt] in X3; try discriminate X3; inversion X3; subst s; cbn [stmt_justified].
    + split; [apply (Ht t B X1)|]. left. apply (Nt t A TA X2).
    + left. split; [apply (Hi i B X1)|]. left. apply (Ni i A TA X2).
  - left. destruct s; try discriminate X3; cbn [stmt_justified].
    + split; [apply in_tables; exact X1|]. left. apply (Nt t B TB X2).
    + left. split; [apply in_indexes; exact X1|]. left. apply (Ni i B TB X2).
  - unfold diff_stmt in X2. destruct x as [tb|ib| | |]; try (inversion X2; subst l'; destruct X3).
    + destruct (find_stmt (CreateTable tb) A) as [[ta| | | |]|] eqn:F; try (inversion X2; subst l'; destruct X3).
      apply find_some in F. destruct F as [F1 F2]. cbn [same_type andb] in F2. rewrite stmt_name_table, stmt_name_table in F2. apply String.eqb_eq in F2.
      assert (P : table_pair B A tb ta) by (split; [apply in_tables; exact X1|split; [apply in_tables; exact F1|exact F2]]).
      pose proof (tidy_in _ _ _ TB X1) as Tb. pose proof (tidy_in _ _ _ TA F1) as Ta. cbn [tidy_stmt] in Tb, Ta.
      unfold diff_create_table in X2.
      destruct (match d with Sp => neqs (options_diff d (ct_options tb)) (options_diff d (ct_options ta)) | _ => false end) eqn:So.
      * left. inversion X2; subst l'.
        assert (Rc : recreated d B A (table_name tb)).
        { destruct d eqn:Ed; try discriminate So. rewrite <- Ed in *. split; [exact Ed|]. exists tb, ta. split; [exact P|]. split; [reflexivity|].
          intro G. apply neqs_neq in So. apply So.
          pose proof (tidy_table_spec _ _ Ta) as Sa. pose proof (tidy_table_spec _ _ Tb) as Sb.
          assert (OV : forall o, In o (ct_options tb) \/ In o (ct_options ta) -> present (o_value o) = true).
          { intros o [Ho|Ho]; [pose proof (ti_opt _ _ Sb o Ho) as X|pose proof (ti_opt _ _ Sa o Ho) as X]; unfold tidy_opt in X; apply andb_true_iff in X; apply X. }
          unfold options_diff. f_equal. clear -G OV. revert G OV. generalize (ct_options ta). induction (ct_options tb) as [|x r IH]; intros l G OV; destruct l as [|y l]; try discriminate G; [reflexivity|].
          cbn [map] in *. inversion G. f_equal.
          - apply option_diff_eq; try assumption; apply OV; cbn [In]; auto.
          - apply IH; [assumption|]. intros o Ho. apply OV. cbn [In]. tauto. }
        destruct X3 as [X3|[X3|[]]]; subst s; cbn [stmt_justified].
        -- split; [apply (Ht tb B X1)|]. right. exact Rc.
        -- split; [apply in_tables; exact F1|]. right. unfold table_name in *. rewrite <- F2. exact Rc.
      * destruct (eqs _ _); [inversion X2; subst l'; destruct X3|].
        destruct (all_named _ && all_named _); [|discriminate X2].
        destruct (diff_tables d srt sdiff false tb ta) as [lt| | |] eqn:E; try discriminate X2.
        assert (l' = lt) by (destruct lt; inversion X2; reflexivity). subst l'.
        destruct (tables_loose d srt sdiff Hsrt tb ta Tb Ta F2 false lt s E X3) as [J|J]; [left|right; exists tb, ta; auto].
        destruct s as [|i| |cmt ie m|cmt m act]; try destruct J; cbn [just stmt_justified] in *.
        -- right. exists tb, ta, x. tauto.
        -- right. exists tb, ta, x. tauto.
        -- subst m. exists tb, ta. split; [exact P|]. split; [reflexivity|]. assumption.
    + destruct (find_stmt (CreateIndex ib) A) as [[|ia| | |]|] eqn:F; try (inversion X2; subst l'; destruct X3).
      apply find_some in F. destruct F as [F1 F2]. cbn [same_type andb] in F2. rewrite stmt_name_index, stmt_name_index in F2. apply String.eqb_eq in F2.
      destruct (neqs _ _) eqn:N; inversion X2; subst l'; [|destruct X3]. apply neqs_neq in N.
      left. assert (Q : sem_index d ib <> sem_index d ia) by (intro G; apply N; apply create_index_diff_eq; assumption).
      destruct X3 as [X3|[X3|[]]]; subst s; cbn [stmt_justified].
      * left. split; [apply (Hi ib B X1)|]. right. exists ib, ia. apply in_indexes in X1. apply in_indexes in F1. auto.
      * left. split; [apply in_indexes; exact F1|]. right. exists ib. apply in_indexes in X1. auto.
Qed.

Theorem diff_justified : forall d srt sdiff B A l s, srt_ok srt -> tidy d B = true -> tidy d A = true -> same_kinds B A = true ->
  diff d srt sdiff (Some B) (Some A) = DOk l -> In s l -> stmt_justified d B A s.
Proof.
  intros d srt sdiff B A l s Hsrt TB TA K H Hs.
  destruct (diff_loose d srt sdiff B A l s Hsrt TB TA H Hs) as [J|[tb [ta [[P1 [P2 P3]] [b [a [Hb [Ha [E [N _]]]]]]]]]]; [exact J|].
  exfalso. apply N. apply bool_eqb_eq. unfold same_kinds in K.
  pose proof (all_pairs_in _ _ _ _ _ K _ _ P1 P2 P3) as K1. cbv beta in K1. exact (all_pairs_in _ _ _ _ _ K1 _ _ Hb Ha E).
Qed.
