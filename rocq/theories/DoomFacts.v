(** Facts for C88: differences that cannot be executed, or leave something out. *)
From Coq Require Import Permutation.
From Verif Require Import GoStr Token Ast Parser Diff Db DbFacts AppendFacts DiffTable DiffPair DiffSound Tidy Reconcile DbDep DepFacts DbRefuse.
Local Open Scope list_scope.

Lemma exec_all_app : forall d a b m, exec_all d (a ++ b) m = match exec_all d a m with Some m' => exec_all d b m' | None => None end.
Proof.
  induction a as [|s a IH]; intros b m; [reflexivity|]. cbn [app exec_all]. destruct (exec d s m) as [m'|]; [apply IH|reflexivity].
Qed.

(** A drop creates nothing. *)
Lemma drop_exec : forall d s m m' k, is_create s = true -> exec d (drop1 s) m = Some m' -> m' k = m k \/ m' k = None.
Proof.
  intros d s m m' k C E. destruct s as [t|i| | |]; try discriminate C; cbn [drop1 drop_stmt exec andb stmt_ops] in E.
  - cbn [run] in E. destruct (op_ok (Wipe (qname (ct_name t))) m); [|discriminate E]. injection E as <-. cbn [op_db].
    destruct (owned_by (qname (ct_name t)) k); [right; reflexivity|].
    unfold unless. destruct (m k) as [v|]; [destruct (index_on (qname (ct_name t)) v)|]; [right|left|left]; reflexivity.
  - unfold drop_index_ops in E. destruct d; cbn [run op_ok] in E; try discriminate E;
      (destruct (present (m (KIdx (qname (cx_name i))))); [|discriminate E]; injection E as <-; cbn [op_db];
       match goal with |- (if ?b then _ else _) = _ \/ _ => destruct b end; [right|left]; reflexivity).
Qed.
Lemma drops_exec : forall d l m m' k, forallb is_create l = true -> exec_all d (map drop1 l) m = Some m' -> m' k = m k \/ m' k = None.
Proof.
  induction l as [|s l IH]; intros m m' k C E; [injection E as <-; left; reflexivity|]. cbn [forallb] in C. apply andb_true_iff in C. destruct C as [C1 C2].
  cbn [map exec_all] in E. destruct (exec d (drop1 s) m) as [m1|] eqn:E1; [|discriminate E].
  destruct (IH _ _ k C2 E) as [H|H]; [|right; exact H]. destruct (drop_exec d s m m1 k C1 E1) as [G|G]; [left|right]; congruence.
Qed.

Lemma filter_split : forall A (f : A -> bool) p x q, f x = true -> filter f (p ++ x :: q) = filter f p ++ x :: filter f q.
Proof. intros A f p x q H. rewrite filter_app. cbn [filter]. rewrite H. reflexivity. Qed.
Lemma forallb_filter : forall A (f g : A -> bool) l, forallb g l = true -> forallb g (filter f l) = true.
Proof. intros A f g l H. apply forallb_forall. intros x I. apply filter_In in I. rewrite forallb_forall in H. apply H. tauto. Qed.

Lemma stays_none : forall l s, is_create s = true -> forallb is_create l = true -> stays l s = false -> find_stmt s l = None.
Proof.
  intros l s C Cl H. unfold stays in H. rewrite partner_find in H; [destruct (find_stmt s l); [discriminate H|reflexivity]|exact C|]. rewrite forallb_forall in Cl. exact Cl.
Qed.

(** The shape of a difference *)
Lemma diff_ddl_shape : forall d srt sdiff B A stmts, forallb is_create B = true -> forallb is_create A = true ->
  diff_ddl d srt sdiff B A = DOk stmts ->
  exists changes, diff_stmts d srt sdiff B A = Ok changes /\ stmts = map drop1 (only_left_stmts B A) ++ only_left_stmts A B ++ changes.
Proof.
  intros d srt sdiff B A stmts CB CA E. unfold diff_ddl in E. destruct (eqs (ddl_string d B) (ddl_string d A)); [discriminate E|].
  rewrite map_opt_drop in E by (apply forallb_filter; exact CB). rewrite map_opt_create in E by (apply forallb_filter; exact CA).
  destruct (diff_stmts d srt sdiff B A) as [changes| | |]; try discriminate E. exists changes. split; [reflexivity|].
  destruct (map drop1 (only_left_stmts B A) ++ only_left_stmts A B ++ changes); [discriminate E|]. congruence.
Qed.

(** Dropping a table and, later, an index on it *)
Lemma drop_index_missing : forall d i m, m (KIdx (qname (cx_name i))) = None -> exec d (drop1 (CreateIndex i)) m = None.
Proof. intros d i m H. cbn [drop1 drop_stmt exec andb stmt_ops]. unfold drop_index_ops. destruct d; cbn [run op_ok]; rewrite ?H; reflexivity. Qed.
Lemma drop_table_index : forall d t i m m' v, exec d (drop1 (CreateTable t)) m = Some m' ->
  (m (KIdx i) = None \/ m (KIdx i) = Some (VIdx v)) -> si_table v = qname (ct_name t) -> m' (KIdx i) = None.
Proof.
  intros d t i m m' v E H T. cbn [drop1 drop_stmt exec andb stmt_ops run] in E. destruct (op_ok (Wipe (qname (ct_name t))) m); [|discriminate E]. injection E as <-.
  cbn [op_db owned_by owner]. destruct H as [H|H]; rewrite H; [reflexivity|]. cbn [unless index_on]. rewrite T, String.eqb_refl. reflexivity.
Qed.
Lemma drops_doomed : forall d l p q r t i m v, forallb is_create l = true -> l = p ++ CreateTable t :: q ++ CreateIndex i :: r ->
  m (KIdx (qname (cx_name i))) = Some (VIdx v) -> si_table v = qname (ct_name t) -> exec_all d (map drop1 l) m = None.
Proof.
  intros d l p q r t i m v C -> V T. rewrite map_app, exec_all_app. destruct (exec_all d (map drop1 p) m) as [m1|] eqn:E1; [|reflexivity].
  rewrite forallb_app in C. apply andb_true_iff in C. destruct C as [C1 C2]. cbn [forallb] in C2. cbn [is_create andb] in C2. rewrite forallb_app in C2. apply andb_true_iff in C2. destruct C2 as [C2 _].
  cbn [map exec_all]. destruct (exec d (drop1 (CreateTable t)) m1) as [m2|] eqn:E2; [|reflexivity].
  assert (N : m2 (KIdx (qname (cx_name i))) = None).
  { apply (drop_table_index d t _ m1 m2 v E2); [|exact T]. destruct (drops_exec d p m m1 (KIdx (qname (cx_name i))) C1 E1) as [H|H]; [right; congruence|left; exact H]. }
  rewrite map_app, exec_all_app. destruct (exec_all d (map drop1 q) m2) as [m3|] eqn:E3; [|reflexivity].
  cbn [map exec_all]. rewrite drop_index_missing; [reflexivity|]. destruct (drops_exec d q m2 m3 (KIdx (qname (cx_name i))) C2 E3) as [H|H]; congruence.
Qed.

Lemma index_value : forall d B mb i, describes d B mb -> In (CreateIndex i) B -> mb (KIdx (qname (cx_name i))) = Some (VIdx (sem_index d i)).
Proof.
  intros d B mb i D I. destruct (describes_entries d B mb D) as [N [V _]]. rewrite V. apply In_assoc; [exact N|]. unfold entries. apply in_flat_map.
  exists (CreateIndex i). split; [exact I|]. left. reflexivity.
Qed.

Theorem gone_table_doomed : forall d srt sdiff B A mb p q r t i stmts,
  describes d B mb -> B = p ++ CreateTable t :: q ++ CreateIndex i :: r -> qname (cx_table i) = qname (ct_name t) ->
  forallb is_create A = true -> stays A (CreateTable t) = false -> stays A (CreateIndex i) = false ->
  diff d srt sdiff (Some B) (Some A) = DOk stmts -> exec_all d stmts mb = None.
Proof.
  intros d srt sdiff B A mb p q r t i stmts D EB T CA St Si E. pose proof D as [CB _]. cbn [diff] in E.
  destruct (diff_ddl_shape d srt sdiff B A stmts CB CA E) as [changes [_ ->]]. rewrite exec_all_app.
  assert (I : In (CreateIndex i) B) by (rewrite EB; apply in_or_app; right; right; apply in_or_app; right; left; reflexivity).
  pose proof (index_value d B mb i D I) as V.
  pose proof (stays_none A _ (eq_refl : is_create (CreateTable t) = true) CA St) as Ft. pose proof (stays_none A _ (eq_refl : is_create (CreateIndex i) = true) CA Si) as Fi.
  assert (El : exists p' q' r', only_left_stmts B A = p' ++ CreateTable t :: q' ++ CreateIndex i :: r').
  { rewrite EB. unfold only_left_stmts. do 3 eexists. rewrite filter_split by (rewrite Ft; reflexivity). rewrite filter_split by (rewrite Fi; reflexivity). reflexivity. }
  destruct El as [p' [q' [r' El]]].
  rewrite (drops_doomed d _ p' q' r' t i mb (sem_index d i)); [reflexivity| |exact El|exact V|exact T]. apply forallb_filter. exact CB.
Qed.
Theorem all_gone_doomed : forall d srt sdiff B mb p q r t i stmts,
  describes d B mb -> B = p ++ CreateTable t :: q ++ CreateIndex i :: r -> qname (cx_table i) = qname (ct_name t) ->
  diff d srt sdiff (Some B) None = DOk stmts -> exec_all d stmts mb = None.
Proof.
  intros d srt sdiff B mb p q r t i stmts D EB T E. pose proof D as [CB _]. cbn [diff] in E. rewrite map_opt_drop in E by exact CB. injection E as <-.
  assert (I : In (CreateIndex i) B) by (rewrite EB; apply in_or_app; right; right; apply in_or_app; right; left; reflexivity).
  exact (drops_doomed d B p q r t i mb (sem_index d i) CB EB (index_value d B mb i D I) T).
Qed.

(** MySQL knows no DROP INDEX without a table. *)
Lemma exec_all_fails : forall d l s m, In s l -> (forall m, exec d s m = None) -> exec_all d l m = None.
Proof.
  induction l as [|x l IH]; intros s m I H; [destruct I|]. cbn [exec_all]. destruct I as [->|I]; [rewrite H; reflexivity|].
  destruct (exec d x m) as [m'|]; [|reflexivity]. exact (IH s m' I H).
Qed.
Lemma diff_stmts_in : forall d srt sdiff B A changes s, diff_stmts d srt sdiff B A = Ok changes -> In s B ->
  exists l1 l l2, diff_stmt d srt sdiff s A = Ok l /\ changes = l1 ++ l ++ l2.
Proof.
  induction B as [|x B IH]; intros A changes s E I; [destruct I|]. cbn [diff_stmts bind] in E.
  destruct (diff_stmt d srt sdiff x A) as [l| | |] eqn:E1; try discriminate E. cbn [bind] in E.
  destruct (diff_stmts d srt sdiff B A) as [l'| | |] eqn:E2; try discriminate E. cbn [bind] in E. injection E as <-. destruct I as [->|I].
  - exists [], l, l'. split; [exact E1|reflexivity].
  - destruct (IH A l' s E2 I) as [l1 [l0 [l2 [H1 H2]]]]. exists (l ++ l1), l0, l2. split; [exact H1|]. rewrite H2, <- app_assoc. reflexivity.
Qed.
Theorem mysql_index_doomed : forall srt sdiff B A i stmts m,
  forallb is_create B = true -> forallb is_create A = true -> In (CreateIndex i) B ->
  (forall j, partner (CreateIndex i) A = Some (CreateIndex j) -> create_index_diff My i <> create_index_diff My j) ->
  diff My srt sdiff (Some B) (Some A) = DOk stmts -> exec_all My stmts m = None.
Proof.
  intros srt sdiff B A i stmts m CB CA I H E. cbn [diff] in E. destruct (diff_ddl_shape My srt sdiff B A stmts CB CA E) as [changes [Ec ->]].
  rewrite partner_find in H; [|reflexivity|rewrite forallb_forall in CA; exact CA].
  destruct (find_stmt (CreateIndex i) A) as [s|] eqn:F.
  - assert (J : exists j, s = CreateIndex j).
    { apply find_some in F. destruct F as [_ F]. destruct s; try discriminate F. eauto. }
    destruct J as [j ->]. specialize (H j eq_refl). destruct (diff_stmts_in My srt sdiff B A changes _ Ec I) as [l1 [l [l2 [El ->]]]].
    unfold diff_stmt in El. rewrite F in El. unfold neqs, eqs in El. destruct (String.eqb_spec (create_index_diff My i) (create_index_diff My j)) as [G|G]; [contradiction|]. cbn [negb] in El. injection El as <-.
    apply (exec_all_fails My _ (DropIndex (sdiff (create_index_diff My i) (create_index_diff My j)) false (cx_name i))); [|intro m0; reflexivity]. apply in_or_app. right. apply in_or_app. right. apply in_or_app. right. left. reflexivity.
  - apply (exec_all_fails My _ (drop1 (CreateIndex i))); [|intro m0; reflexivity]. apply in_or_app. left. apply in_map. apply only_left_in. split; assumption.
Qed.

(** Operations that cannot bring an object into being *)
Definition mute (k : key) (o : op) : bool :=
  match o with
  | Add x _ | Put x _ | Upd x _ => negb (key_eqb x k)
  | Fresh t => negb (key_eqb (KTab t) k)
  | _ => true
  end.
Lemma mute_run : forall k os m m', forallb (mute k) os = true -> run os m = Some m' -> m' k = m k \/ m' k = None.
Proof.
  induction os as [|o os IH]; intros m m' Q R; [injection R as <-; left; reflexivity|]. cbn [forallb] in Q. apply andb_true_iff in Q. destruct Q as [Q1 Q2].
  cbn [run] in R. destruct (op_ok o m) eqn:K; [|discriminate R]. destruct (IH _ _ Q2 R) as [H|H]; [|right; exact H]. rewrite H.
  pose proof (op_ok_eff o m K k) as F. revert F. generalize (op_db o m k). intros w F. destruct o; cbn [mute] in Q1; cbn [eff] in F;
    repeat match type of F with
           | (if ?b then _ else _) = _ => destruct b; try discriminate Q1; try discriminate F
           end; try discriminate F; injection F as <-; auto;
    unfold unless; destruct (m k) as [v|]; auto; match goal with |- (if ?b then _ else _) = _ \/ _ => destruct b; auto end.
Qed.
Lemma mute_exec : forall d k s m m', no_rename s = true -> forallb (mute k) (stmt_ops d s) = true -> exec d s m = Some m' -> m' k = m k \/ m' k = None.
Proof.
  intros d k s m m' N Q E. destruct s; cbn [exec] in E;
    try (match type of E with (if ?b then _ else _) = _ => destruct b; [injection E as <-; left; reflexivity|] end; exact (mute_run k _ m m' Q E)).
  destruct a; try discriminate N; exact (mute_run k _ m m' Q E).
Qed.
Definition silent (d : dialect) (k : key) (s : stmt) : bool := no_rename s && forallb (mute k) (stmt_ops d s).
Lemma silent_exec : forall d k l m m', forallb (silent d k) l = true -> exec_all d l m = Some m' -> m' k = m k \/ m' k = None.
Proof.
  induction l as [|s l IH]; intros m m' Q E; [injection E as <-; left; reflexivity|]. cbn [forallb] in Q. apply andb_true_iff in Q. destruct Q as [Q1 Q2].
  cbn [exec_all] in E. destruct (exec d s m) as [m1|] eqn:E1; [|discriminate E]. unfold silent in Q1. apply andb_true_iff in Q1. destruct Q1 as [N Q1].
  destruct (IH _ _ Q2 E) as [H|H]; [|right; exact H]. destruct (mute_exec d k s m m1 N Q1 E1) as [G|G]; [left|right]; congruence.
Qed.

(** Adding constraints invents none. *)
Lemma replace_in : forall cs c cs' x, replace_constraint cs c = Some (Some cs') -> In x cs' -> In x cs \/ x = c.
Proof.
  induction cs as [|y cs IH]; intros c cs' x E I; [discriminate E|]. cbn [replace_constraint] in E.
  destruct (con_name y) as [ny|]; [|discriminate E]. destruct (con_name c) as [nc|] eqn:Nc; [|discriminate E]. destruct (eqs (id_name ny) (id_name nc)).
  - injection E as <-. destruct I as [<-|I]; [right; reflexivity|left; right; exact I].
  - destruct (replace_constraint cs c) as [[l|]|] eqn:E1; try discriminate E. injection E as <-. destruct I as [<-|I]; [left; left; reflexivity|].
    destruct (IH c l x E1 I) as [H|H]; [left; right; exact H|right; exact H].
Qed.
Lemma append_in : forall d srt new cs cs' x, srt_ok srt -> append_constraints d srt cs new = Ok cs' -> In x cs' -> In x cs \/ In x new.
Proof.
  intros d srt new. induction new as [|c new IH]; intros cs cs' x Hs E I; [injection E as <-; left; exact I|]. cbn [append_constraints] in E.
  destruct (append_constraint d srt cs c) as [cs1| | |] eqn:E1; cbn [bind] in E; try discriminate E.
  destruct (IH cs1 cs' x Hs E I) as [H|H]; [|right; right; exact H].
  assert (In x cs \/ x = c) as [G| ->]; [|left; exact G|right; left; reflexivity].
  unfold append_constraint in E1. destruct (replace_constraint cs c) as [[l|]|] eqn:E2; try discriminate E1.
  - assert (P : In x l). { destruct d; injection E1 as <-; try exact H; apply (Permutation_in x (sort_constraints_perm srt Hs l)); exact H. }
    exact (replace_in cs c l x E2 P).
  - assert (P : In x (cs ++ [c])). { destruct d; injection E1 as <-; try exact H; apply (Permutation_in x (sort_constraints_perm srt Hs (cs ++ [c]))); exact H. }
    apply in_app_or in P. destruct P as [P|[P|[]]]; [left; exact P|right; symmetry; exact P].
Qed.

(** The statements of a changed table *)
Definition about (d : dialect) (n : objname) (cs : list constraint) (s : stmt) : Prop :=
  match s with
  | AlterTable _ m a => m = n /\ match a with AddConstraint c _ => In c cs | RenameTable _ => False | _ => True end
  | DropIndex _ _ _ => True
  | CreateIndex i => exists c, In c cs /\ is_index d c = true /\ cx_name i = index_objname d (on_schema n) (con_ident c)
  | _ => False
  end.
Lemma columns_about : forall d sdiff n cs bc ac s, In s (diff_columns d sdiff n bc ac) -> about d n cs s.
Proof.
  intros d sdiff n cs bc ac s I. unfold diff_columns in I. apply in_app_or in I. destruct I as [I|I].
  - apply in_flat_map in I. destruct I as [b [_ I]]. unfold diff_before_column in I. destruct (find_column (id_name (c_name b)) ac) as [a|].
    + unfold diff_common_column, diff_default, diff_notnull, diff_options in I. cbv zeta in I.
      destruct d; repeat (apply in_app_or in I; destruct I as [I|I]);
        repeat match type of I with In _ (if ?b then _ else _) => destruct b end; first [destruct I as [<-|[]]; split; [reflexivity|exact Logic.I] | destruct I].
    + destruct (keep_hidden d b); [destruct I|]. destruct I as [<-|[]]. split; trivial.
  - apply in_map_iff in I. destruct I as [a [<- _]]. split; trivial.
Qed.
Lemma index_of_about : forall d cm n cs c, In c cs -> is_index d c = true -> about d n cs (index_of_constraint d cm n c).
Proof. intros d cm n cs c I K. destruct c; try (destruct d; discriminate K). cbn [index_of_constraint about cx_name]. eexists. split; [exact I|]. split; [exact K|reflexivity]. Qed.
Lemma tables_about : forall d srt sdiff nv b a l s, srt_ok srt -> renamed (ct_name b) (ct_name a) = false ->
  diff_tables d srt sdiff nv b a = Ok l -> In s l -> about d (ct_name a) (ct_constraints a) s.
Proof.
  intros d srt sdiff nv b a l s Hs R E I. unfold diff_tables in E. unfold final_name, diff_rename in E. rewrite R in E. cbn [andb] in E.
  destruct (only_left_constraints d srt (ct_constraints a) (ct_constraints b)) as [added| | |] eqn:Ea; cbn [bind] in E; try discriminate E. injection E as <-.
  cbn [app] in I. apply in_app_or in I; destruct I as [I|I]; [|apply in_app_or in I; destruct I as [I|I]; [|apply in_app_or in I; destruct I as [I|I]; [|apply in_app_or in I; destruct I as [I|I]; [|apply in_app_or in I; destruct I as [I|I]]]]].
  - apply in_flat_map in I. destruct I as [c [_ I]]. unfold drop_gone_constraint in I. destruct (find_constraint (con_key c) (ct_constraints a)); [destruct I|].
    destruct (is_index d c); destruct I as [<-|[]]; cbn [about]; auto.
  - exact (columns_about _ _ _ _ _ _ _ I).
  - apply in_flat_map in I. destruct I as [c [_ I]]. unfold change_constraint in I. destruct (find_constraint (con_key c) (ct_constraints a)) as [c'|] eqn:F; [|destruct I].
    apply find_some in F. destruct F as [F _]. destruct (neqs (constraint_diff d c) (constraint_diff d c')); [|destruct I].
    destruct (is_index d c') eqn:K; destruct I as [<-|[<-|[]]]; cbn [about]; auto. apply index_of_about; assumption.
  - apply in_map_iff in I. destruct I as [c [<- I]]. unfold only_left_constraints in Ea. destruct (append_in d srt _ _ _ c Hs Ea I) as [[]|G]. apply filter_In in G. destruct G as [G _].
    unfold add_constraint. destruct (is_index d c) eqn:K; [apply index_of_about; assumption|]. cbn [about]; auto.
  - unfold diff_table_options in I. destruct d; try destruct I. apply in_app_or in I. destruct I as [I|I].
    + apply in_flat_map in I. destruct I as [o [_ I]]. destruct (is_auto_increment o); [destruct I|]. destruct (find_option (o_name o) (ct_options a)); [|destruct I].
      match type of I with In _ (if ?b then _ else _) => destruct b end; [|destruct I]. destruct I as [<-|[]]. cbn [about]; auto.
    + apply in_map_iff in I. destruct I as [o [<- _]]. cbn [about]; auto.
  - unfold diff_row_deletion in I. destruct d; try destruct I. match type of I with In _ (if ?b then _ else _) => destruct b end; [|destruct I].
    destruct (ct_rowdel b), (ct_rowdel a); first [destruct I as [<-|[]]; cbn [about]; auto | destruct I].
Qed.

(** What brings an index into being *)
Lemma key_eqb_false : forall a b, a <> b -> key_eqb a b = false.
Proof. intros a b H. apply key_eqb_neq. exact H. Qed.
Lemma mute_add : forall k x v, x <> k -> forallb (mute k) [Add x v] = true.
Proof. intros k x v H. unfold forallb, mute. rewrite key_eqb_false by exact H. reflexivity. Qed.
Definition inner_free (d : dialect) (n : objname) (x : string) (cs : list constraint) : Prop :=
  forall nm u pre cols post, In (CIndex (Some nm) u pre cols post) cs -> intable_key d n nm <> KIdx x.
Lemma add_con_mute : forall d n x c, inner_free d n x [c] -> forallb (mute (KIdx x)) (add_con_ops d n c) = true.
Proof.
  intros d n x c F. destruct c as [o ?|o ? ? ? ?|o ?|o u pre cols post|o ?]; cbn [add_con_ops con_name];
    try (match goal with |- context [sem_con d ?c] => destruct (sem_con d c) end; destruct o; reflexivity).
  destruct o as [nm|]; [|reflexivity]. apply mute_add. exact (F nm u pre cols post (or_introl eq_refl)).
Qed.
Lemma about_silent_idx : forall d n x cs s, all_named cs = true -> inner_free d n x cs -> about d n cs s -> silent d (KIdx x) s = true.
Proof.
  intros d n x cs s N F A. destruct s as [t|i|? ? ?|? ? ?|? m a]; cbn [about] in A; try destruct A.
  - destruct H as [I [K E]]. unfold silent. cbn [no_rename stmt_ops create_index_ops andb]. apply mute_add.
    destruct x0 as [o ?|o ? ? ? ?|o ?|o u pre cols post|o ?]; try (destruct d; discriminate K). unfold all_named in N. rewrite forallb_forall in N. pose proof (N _ I) as Nc.
    destruct o as [nm|]; [|discriminate Nc]. specialize (F nm u pre cols post I). rewrite E. unfold con_ident. cbn [con_name]. intro G. apply F. rewrite <- G. unfold intable_key, index_objname. destruct d; reflexivity.
  - unfold silent. cbn [no_rename stmt_ops]. unfold drop_index_ops. destruct d; reflexivity.
  - subst m. unfold silent. destruct a; try destruct H0; cbn [no_rename stmt_ops action_ops forallb mute andb]; try reflexivity;
      try (repeat match goal with |- context [match ?v with Some _ => _ | None => _ end] => destruct v end; reflexivity).
    apply add_con_mute. intros nm u pre cols post [E|[]]. subst c. exact (F nm u pre cols post H0).
Qed.
Lemma create_silent_idx : forall d x t, inner_free d (ct_name t) x (ct_constraints t) -> silent d (KIdx x) (CreateTable t) = true.
Proof.
  intros d x t F. unfold silent. cbn [no_rename stmt_ops andb]. unfold create_table_ops. cbn [forallb mute negb key_eqb andb]. rewrite !forallb_app, !andb_true_iff. repeat split.
  - apply forallb_forall. intros o I. apply in_flat_map in I. destruct I as [c [_ [<-|[]]]]. reflexivity.
  - apply forallb_forall. intros o I. apply in_flat_map in I. destruct I as [c [Ic I]].
    assert (G : forallb (mute (KIdx x)) (add_con_ops d (ct_name t) c) = true).
    { apply add_con_mute. intros nm u pre cols post [E|[]]. subst c. exact (F nm u pre cols post Ic). }
    rewrite forallb_forall in G. exact (G o I).
  - apply forallb_forall. intros o I. apply in_flat_map in I. destruct I as [c [_ I]]. unfold add_opt_ops in I. destruct d; try (destruct I as [<-|[]]; reflexivity).
    destruct (counter_option c); [destruct I|]. destruct I as [<-|[]]. reflexivity.
  - unfold add_row_ops. destruct (ct_rowdel t); reflexivity.
Qed.
Lemma declares_index : forall d i, declares d (KIdx (qname (cx_name i))) (CreateIndex i) = true.
Proof. intros d i. unfold declares. cbn [stmt_entries existsb fst]. rewrite key_eqb_refl. reflexivity. Qed.
Lemma index_inner_free : forall d A i t, forallb is_create A = true -> NoDup (map fst (entries d A)) -> In (CreateIndex i) A -> In (CreateTable t) A ->
  inner_free d (ct_name t) (qname (cx_name i)) (ct_constraints t).
Proof.
  intros d A i t CA NA Ii It nm u pre cols post Ic E.
  assert (X : CreateIndex i = CreateTable t); [|discriminate X].
  apply (belongs_eq d A (KIdx (qname (cx_name i))) _ _ CA NA Ii It); apply declares_belongs; [apply declares_index|].
  unfold declares. apply existsb_exists. exists (intable_key d (ct_name t) nm, VIdx (sem_intable d (ct_name t) u pre cols post)). split; [|cbn [fst]; rewrite E; apply key_eqb_refl].
  cbn [stmt_entries]. unfold table_entries. right. apply in_or_app. right. apply in_or_app. left. apply in_flat_map. exists (CIndex (Some nm) u pre cols post). split; [exact Ic|left; reflexivity].
Qed.
Lemma index_names_eq : forall d A i j, forallb is_create A = true -> NoDup (map fst (entries d A)) -> In (CreateIndex i) A -> In (CreateIndex j) A ->
  qname (cx_name i) = qname (cx_name j) -> i = j.
Proof.
  intros d A i j CA NA Ii Ij E. assert (X : CreateIndex i = CreateIndex j); [|congruence].
  apply (belongs_eq d A (KIdx (qname (cx_name i))) _ _ CA NA Ii Ij); apply declares_belongs; [apply declares_index|]. rewrite E. apply declares_index.
Qed.
Lemma table_names_eq : forall d A t u, forallb is_create A = true -> NoDup (map fst (entries d A)) -> In (CreateTable t) A -> In (CreateTable u) A ->
  qname (ct_name t) = qname (ct_name u) -> t = u.
Proof.
  intros d A t u CA NA It Iu E. assert (X : CreateTable t = CreateTable u); [|congruence].
  apply (belongs_eq d A (KTab (qname (ct_name t))) _ _ CA NA It Iu); unfold belongs; cbn [owner]; apply String.eqb_eq; congruence.
Qed.
Lemma found_table : forall t A s, find_stmt (CreateTable t) A = Some s -> exists u, s = CreateTable u /\ In (CreateTable u) A /\ qname (ct_name t) = qname (ct_name u).
Proof.
  intros t A s F. apply find_some in F. destruct F as [I F]. destruct s; try discriminate F. exists t0. split; [reflexivity|]. split; [exact I|]. cbn [same_type andb] in F. apply String.eqb_eq. exact F.
Qed.
Lemma found_index : forall i A s, find_stmt (CreateIndex i) A = Some s -> exists j, s = CreateIndex j /\ In (CreateIndex j) A /\ qname (cx_name i) = qname (cx_name j).
Proof.
  intros t A s F. apply find_some in F. destruct F as [I F]. destruct s; try discriminate F. exists i. split; [reflexivity|]. split; [exact I|]. cbn [same_type andb] in F. apply String.eqb_eq. exact F.
Qed.
Lemma find_table : forall d A t u, forallb is_create A = true -> NoDup (map fst (entries d A)) -> In (CreateTable u) A -> qname (ct_name t) = qname (ct_name u) ->
  find_stmt (CreateTable t) A = Some (CreateTable u).
Proof.
  intros d A t u CA NA I E. destruct (find_stmt (CreateTable t) A) as [s|] eqn:F.
  - destruct (found_table t A s F) as [v [-> [Iv Ev]]]. do 2 f_equal. apply (table_names_eq d A v u CA NA Iv I). congruence.
  - exfalso. pose proof (find_none _ _ F _ I) as G. cbn [same_type andb stmt_name] in G. change (eqs (qname (ct_name t)) (qname (ct_name u)) = false) in G. unfold eqs in G. rewrite E, String.eqb_refl in G. discriminate G.
Qed.
Lemma find_index : forall d A t u, forallb is_create A = true -> NoDup (map fst (entries d A)) -> In (CreateIndex u) A -> qname (cx_name t) = qname (cx_name u) ->
  find_stmt (CreateIndex t) A = Some (CreateIndex u).
Proof.
  intros d A t u CA NA I E. destruct (find_stmt (CreateIndex t) A) as [s|] eqn:F.
  - destruct (found_index t A s F) as [v [-> [Iv Ev]]]. do 2 f_equal. apply (index_names_eq d A v u CA NA Iv I). congruence.
  - exfalso. pose proof (find_none _ _ F _ I) as G. cbn [same_type andb stmt_name] in G. change (eqs (qname (cx_name t)) (qname (cx_name u)) = false) in G. unfold eqs in G. rewrite E, String.eqb_refl in G. discriminate G.
Qed.

Lemma diff_stmts_from : forall d srt sdiff B A changes x, diff_stmts d srt sdiff B A = Ok changes -> In x changes ->
  exists s l, In s B /\ diff_stmt d srt sdiff s A = Ok l /\ In x l.
Proof.
  induction B as [|s B IH]; intros A changes x E I; [injection E as <-; destruct I|]. cbn [diff_stmts] in E.
  destruct (diff_stmt d srt sdiff s A) as [l| | |] eqn:E1; cbn [bind] in E; try discriminate E.
  destruct (diff_stmts d srt sdiff B A) as [l'| | |] eqn:E2; cbn [bind] in E; try discriminate E. injection E as <-. apply in_app_or in I. destruct I as [I|I].
  - exists s, l. split; [left; reflexivity|]. auto.
  - destruct (IH A l' x E2 I) as [s' [l0 [H1 H2]]]. exists s', l0. split; [right; exact H1|exact H2].
Qed.
Lemma drop_silent : forall d k s, is_create s = true -> silent d k (drop1 s) = true.
Proof. intros d k s C. destruct s; try discriminate C; [reflexivity|]. unfold silent. cbn [drop1 drop_stmt no_rename stmt_ops andb]. unfold drop_index_ops. destruct d; reflexivity. Qed.

(** A difference that says nothing about an index does not create it. *)
Lemma unmentioned_index : forall d srt sdiff B A i j changes, srt_ok srt ->
  forallb is_create B = true -> forallb is_create A = true -> NoDup (map fst (entries d B)) -> NoDup (map fst (entries d A)) ->
  In (CreateIndex i) B -> In (CreateIndex j) A -> qname (cx_name i) = qname (cx_name j) -> create_index_diff d i = create_index_diff d j ->
  diff_stmts d srt sdiff B A = Ok changes ->
  forallb (silent d (KIdx (qname (cx_name i)))) (map drop1 (only_left_stmts B A) ++ only_left_stmts A B ++ changes) = true.
Proof.
  intros d srt sdiff B A i j changes Hs CB CA NB NA Ii Ij En Et Ec. rewrite !forallb_app, !andb_true_iff. rewrite forallb_forall in CB, CA. split; [|split].
  - apply forallb_forall. intros s I. apply in_map_iff in I. destruct I as [x [<- I]]. apply only_left_in in I. apply drop_silent. apply CB. tauto.
  - apply forallb_forall. intros s I. apply only_left_in in I. destruct I as [I F]. pose proof (CA s I) as C. destruct s as [t|i0| | |]; try discriminate C.
    + apply create_silent_idx. rewrite En. apply (index_inner_free d A j t); try assumption. apply forallb_forall. exact CA.
    + unfold silent. cbn [no_rename stmt_ops create_index_ops andb]. apply mute_add. intro G. injection G as G.
      rewrite (find_index d B i0 i) in F; [discriminate F|apply forallb_forall; exact CB|exact NB|exact Ii|exact G].
  - apply forallb_forall. intros s I. destruct (diff_stmts_from d srt sdiff B A changes s Ec I) as [x [l [Ix [El Is]]]]. pose proof (CB x Ix) as C.
    destruct x as [t|i0| | |]; try discriminate C.
    + cbn [diff_stmt] in El. destruct (find_stmt (CreateTable t) A) as [p|] eqn:F; [|injection El as <-; destruct Is].
      destruct (found_table t A p F) as [u [-> [Iu Eu]]].
      assert (Fr : inner_free d (ct_name u) (qname (cx_name i)) (ct_constraints u)) by (rewrite En; apply (index_inner_free d A j u); try assumption; apply forallb_forall; exact CA).
      unfold diff_create_table in El. match type of El with context [if ?b then DOk _ else _] => destruct b end.
      * injection El as <-. destruct Is as [<-|[<-|[]]]; [reflexivity|]. apply create_silent_idx. exact Fr.
      * destruct (eqs (create_table_string d t) (create_table_string d u)); [injection El as <-; destruct Is|].
        destruct (all_named (ct_constraints t) && all_named (ct_constraints u)) eqn:N; [|discriminate El]. apply andb_true_iff in N. destruct N as [_ N].
        destruct (diff_tables d srt sdiff false t u) as [l0| | |] eqn:Et'; try discriminate El.
        assert (Il : In s l0) by (destruct l0; injection El as <-; exact Is).
        apply (about_silent_idx d (ct_name u) _ (ct_constraints u)); [exact N|exact Fr|]. apply (tables_about d srt sdiff false t u l0 s Hs); try assumption.
        unfold renamed, neqs, eqs. change (negb (String.eqb (qname (ct_name t)) (qname (ct_name u))) = false). rewrite Eu, String.eqb_refl. reflexivity.
    + cbn [diff_stmt] in El. destruct (find_stmt (CreateIndex i0) A) as [p|] eqn:F; [|injection El as <-; destruct Is].
      destruct (found_index i0 A p F) as [u [-> [Iu Eu]]]. destruct (neqs (create_index_diff d i0) (create_index_diff d u)) eqn:Ne; [|injection El as <-; destruct Is].
      assert (Nn : qname (cx_name i0) <> qname (cx_name i)).
      { intro G. assert (i0 = i) by (apply (index_names_eq d B); try assumption; apply forallb_forall; exact CB). assert (u = j) by (apply (index_names_eq d A); try assumption; [apply forallb_forall; exact CA|congruence]).
        subst. unfold neqs, eqs in Ne. rewrite Et, String.eqb_refl in Ne. discriminate Ne. }
      injection El as <-. destruct Is as [<-|[<-|[]]].
      * unfold silent. cbn [no_rename stmt_ops andb]. unfold drop_index_ops. destruct d; reflexivity.
      * unfold silent. cbn [no_rename stmt_ops create_index_ops andb]. apply mute_add. intro G. injection G as G. congruence.
Qed.

Theorem recreated_index_lost : forall srt sdiff B A mb ma t u i j stmts m, srt_ok srt ->
  describes Sp B mb -> describes Sp A ma ->
  In (CreateTable t) B -> In (CreateTable u) A -> qname (ct_name t) = qname (ct_name u) -> options_diff Sp (ct_options t) <> options_diff Sp (ct_options u) ->
  In (CreateIndex i) B -> In (CreateIndex j) A -> qname (cx_name i) = qname (cx_name j) -> create_index_diff Sp i = create_index_diff Sp j ->
  qname (cx_table i) = qname (ct_name t) ->
  diff Sp srt sdiff (Some B) (Some A) = DOk stmts -> exec_all Sp stmts mb = Some m -> m (KIdx (qname (cx_name i))) = None.
Proof.
  intros srt sdiff B A mb ma t u i j stmts m Hs DB DA It Iu Et Eo Ii Ij En Ex Ti E X.
  destruct (describes_entries Sp B mb DB) as [NB _]. destruct (describes_entries Sp A ma DA) as [NA _]. pose proof (index_value Sp B mb i DB Ii) as V. destruct DB as [CB _]. destruct DA as [CA _].
  cbn [diff] in E. destruct (diff_ddl_shape Sp srt sdiff B A stmts CB CA E) as [changes [Ec ->]].
  pose proof (unmentioned_index Sp srt sdiff B A i j changes Hs CB CA NB NA Ii Ij En Ex Ec) as Q.
  destruct (diff_stmts_in Sp srt sdiff B A changes _ Ec It) as [l1 [l [l2 [El ->]]]].
  unfold diff_stmt in El. rewrite (find_table Sp A t u CA NA Iu Et) in El. unfold diff_create_table, neqs, eqs in El.
  destruct (String.eqb_spec (options_diff Sp (ct_options t)) (options_diff Sp (ct_options u))) as [G|_]; [contradiction|]. cbn [negb] in El. injection El as <-.
  rewrite !app_assoc, <- !app_assoc with (n := l2) in X, Q.
  set (pre := (map drop1 (only_left_stmts B A) ++ only_left_stmts A B) ++ l1) in *. rewrite forallb_app in Q. apply andb_true_iff in Q. destruct Q as [Q1 Q2].
  cbn [app] in X, Q2. rewrite exec_all_app in X. destruct (exec_all Sp pre mb) as [m1|] eqn:X1; [|discriminate X]. cbn [exec_all] in X.
  match type of X with match exec Sp ?s m1 with _ => _ end = _ => change (exec Sp s m1) with (exec Sp (drop1 (CreateTable t)) m1) in X end.
  destruct (exec Sp (drop1 (CreateTable t)) m1) as [m2|] eqn:X2; [|discriminate X].
  assert (N2 : m2 (KIdx (qname (cx_name i))) = None).
  { apply (drop_table_index Sp t _ m1 m2 (sem_index Sp i) X2); [|exact Ti]. destruct (silent_exec Sp _ pre mb m1 Q1 X1) as [H|H]; [right; congruence|left; exact H]. }
  cbn [forallb] in Q2. apply andb_true_iff in Q2. destruct Q2 as [_ Q2].
  assert (X3 : exec_all Sp (CreateTable u :: l2) m2 = Some m) by exact X.
  destruct (silent_exec Sp (KIdx (qname (cx_name i))) (CreateTable u :: l2) m2 m Q2 X3) as [H|H]; congruence.
Qed.

(** ** A constraint that loses a column *)
Lemma add_con_mute_con : forall d n T L c, (qname n = T -> con_label c = L -> is_inner_index c = true) -> forallb (mute (KCon T L)) (add_con_ops d n c) = true.
Proof.
  intros d n T L c H. destruct c as [o ?|o ? ? ? ?|o ?|o u pre cols post|o ?]; cbn [add_con_ops con_name];
    try (match goal with |- context [sem_con d ?c] => destruct (sem_con d c) end; destruct o as [nm|]; try reflexivity;
         apply mute_add; intro G; injection G as G1 G2; specialize (H G1 G2); discriminate H).
Qed.
Lemma about_silent_con : forall d n T L cs s, (forall c, In c cs -> qname n = T -> con_label c <> L) -> about d n cs s -> silent d (KCon T L) s = true.
Proof.
  intros d n T L cs s F A. destruct s as [t|i|? ? ?|? ? ?|? m a]; cbn [about] in A; try destruct A.
  - reflexivity.
  - unfold silent. cbn [no_rename stmt_ops]. unfold drop_index_ops. destruct d; reflexivity.
  - subst m. unfold silent. destruct a; try destruct H0; cbn [no_rename stmt_ops action_ops forallb mute andb]; try reflexivity;
      try (repeat match goal with |- context [match ?v with Some _ => _ | None => _ end] => destruct v end; reflexivity).
    apply add_con_mute_con. intros E1 E2. destruct (F c H0 E1 E2).
Qed.
Lemma create_silent_con : forall d T L t, qname (ct_name t) <> T -> silent d (KCon T L) (CreateTable t) = true.
Proof.
  intros d T L t N. unfold silent. cbn [no_rename stmt_ops andb]. unfold create_table_ops. cbn [forallb mute negb key_eqb andb]. rewrite !forallb_app, !andb_true_iff. repeat split.
  - apply forallb_forall. intros o I. apply in_flat_map in I. destruct I as [c [_ [<-|[]]]]. reflexivity.
  - apply forallb_forall. intros o I. apply in_flat_map in I. destruct I as [c [Ic I]].
    assert (G : forallb (mute (KCon T L)) (add_con_ops d (ct_name t) c) = true) by (apply add_con_mute_con; intro; contradiction).
    rewrite forallb_forall in G. exact (G o I).
  - apply forallb_forall. intros o I. apply in_flat_map in I. destruct I as [c [_ I]]. unfold add_opt_ops in I. destruct d; try (destruct I as [<-|[]]; reflexivity).
    destruct (counter_option c); [destruct I|]. destruct I as [<-|[]]. reflexivity.
  - unfold add_row_ops. destruct (ct_rowdel t); reflexivity.
Qed.
Lemma create_index_silent_con : forall d T L i, silent d (KCon T L) (CreateIndex i) = true.
Proof. reflexivity. Qed.
(** The statements for the other objects *)
Lemma other_silent : forall d srt sdiff A s l T L, srt_ok srt -> is_create s = true -> (forall t, s = CreateTable t -> qname (ct_name t) <> T) ->
  diff_stmt d srt sdiff s A = Ok l -> forallb (silent d (KCon T L)) l = true.
Proof.
  intros d srt sdiff A s l T L Hs C N E. apply forallb_forall. intros x I. destruct s as [t|i| | |]; try discriminate C.
  - cbn [diff_stmt] in E. destruct (find_stmt (CreateTable t) A) as [p|] eqn:F; [|injection E as <-; destruct I].
    destruct (found_table t A p F) as [u [-> [Iu Eu]]]. specialize (N t eq_refl).
    unfold diff_create_table in E. match type of E with context [if ?b then DOk _ else _] => destruct b end.
    + injection E as <-. destruct I as [<-|[<-|[]]]; [reflexivity|]. apply create_silent_con. congruence.
    + destruct (eqs (create_table_string d t) (create_table_string d u)); [injection E as <-; destruct I|].
      destruct (all_named (ct_constraints t) && all_named (ct_constraints u)); [|discriminate E].
      destruct (diff_tables d srt sdiff false t u) as [l0| | |] eqn:Et'; try discriminate E.
      assert (Il : In x l0) by (destruct l0; injection E as <-; exact I).
      apply (about_silent_con d (ct_name u) _ _ (ct_constraints u)); [intros c _ G; congruence|]. apply (tables_about d srt sdiff false t u l0 x Hs); try assumption.
      unfold renamed, neqs, eqs. change (negb (String.eqb (qname (ct_name t)) (qname (ct_name u))) = false). rewrite Eu, String.eqb_refl. reflexivity.
  - cbn [diff_stmt] in E. destruct (find_stmt (CreateIndex i) A) as [p|] eqn:F; [|injection E as <-; destruct I].
    destruct (found_index i A p F) as [u [-> [Iu Eu]]]. destruct (neqs (create_index_diff d i) (create_index_diff d u)); injection E as <-; [|destruct I].
    destruct I as [<-|[<-|[]]]; [|reflexivity]. unfold silent. cbn [no_rename stmt_ops andb]. unfold drop_index_ops. destruct d; reflexivity.
Qed.
Lemma diff_stmts_split : forall d srt sdiff p s q A changes, diff_stmts d srt sdiff (p ++ s :: q) A = Ok changes ->
  exists l1 l l2, diff_stmts d srt sdiff p A = Ok l1 /\ diff_stmt d srt sdiff s A = Ok l /\ diff_stmts d srt sdiff q A = Ok l2 /\ changes = l1 ++ l ++ l2.
Proof.
  induction p as [|x p IH]; intros s q A changes E; cbn [app diff_stmts] in E.
  - destruct (diff_stmt d srt sdiff s A) as [l| | |] eqn:E1; cbn [bind] in E; try discriminate E.
    destruct (diff_stmts d srt sdiff q A) as [l'| | |] eqn:E2; cbn [bind] in E; try discriminate E. injection E as <-. exists [], l, l'. auto.
  - destruct (diff_stmt d srt sdiff x A) as [l0| | |] eqn:E1; cbn [bind] in E; try discriminate E.
    destruct (diff_stmts d srt sdiff (p ++ s :: q) A) as [l'| | |] eqn:E2; cbn [bind] in E; try discriminate E. injection E as <-.
    destruct (IH s q A l' E2) as [l1 [l [l2 [H1 [H2 [H3 ->]]]]]]. exists (l0 ++ l1), l, l2. cbn [diff_stmts]. rewrite E1, H1. cbn [bind]. rewrite app_assoc. auto.
Qed.
Lemma options_about : forall d sdiff n cs bo ao s, In s (diff_table_options d sdiff n bo ao) -> about d n cs s.
Proof.
  intros d sdiff n cs bo ao s I. unfold diff_table_options in I. destruct d; try destruct I. apply in_app_or in I. destruct I as [I|I].
  - apply in_flat_map in I. destruct I as [o [_ I]]. destruct (is_auto_increment o); [destruct I|]. destruct (find_option (o_name o) ao); [|destruct I].
    match type of I with In _ (if ?b then _ else _) => destruct b end; [|destruct I]. destruct I as [<-|[]]. cbn [about]; auto.
  - apply in_map_iff in I. destruct I as [o [<- _]]. cbn [about]; auto.
Qed.
Lemma row_about : forall d sdiff n cs b a s, In s (diff_row_deletion d sdiff n b a) -> about d n cs s.
Proof.
  intros d sdiff n cs b a s I. unfold diff_row_deletion in I. destruct d; try destruct I. match type of I with In _ (if ?b then _ else _) => destruct b end; [|destruct I].
  destruct b, a; first [destruct I as [<-|[]]; cbn [about]; auto | destruct I].
Qed.
Lemma about_free : forall d n T L l, (forall s, In s l -> about d n [] s) -> forallb (silent d (KCon T L)) l = true.
Proof. intros d n T L l H. apply forallb_forall. intros s I. apply (about_silent_con d n T L []); [intros c []|exact (H s I)]. Qed.
Lemma silent_none : forall d k l m m', forallb (silent d k) l = true -> exec_all d l m = Some m' -> m k = None -> m' k = None.
Proof. intros d k l m m' Q E N. destruct (silent_exec d k l m m' Q E) as [H|H]; congruence. Qed.
Lemma label_key : forall c, con_label c = con_key c.
Proof. intro c. unfold con_label, con_key, con_ident. destruct (con_name c); reflexivity. Qed.
Lemma drop_con_missing : forall d cm n nm m, m (KCon (qname n) (id_name nm)) = None -> exec d (AlterTable cm n (DropConstraint (Some nm))) m = None.
Proof. intros d cm n nm m H. cbn [exec stmt_ops action_ops run op_ok]. destruct (present (m (KTab (qname n)))); [|reflexivity]. cbn [op_db]. rewrite H. reflexivity. Qed.

Lemma changed_none : forall d sdiff nv bn n acs cs L m m', all_named cs = true ->
  exec_all d (flat_map (change_constraint d sdiff nv bn n acs) cs) m = Some m' -> m (KCon (qname n) L) = None -> m' (KCon (qname n) L) = None.
Proof.
  induction cs as [|b cs IH]; intros L m m' N E H; [injection E as <-; exact H|]. cbn [flat_map] in E. rewrite exec_all_app in E. unfold all_named in N. cbn [forallb] in N. apply andb_true_iff in N. destruct N as [Nb N].
  destruct (exec_all d (change_constraint d sdiff nv bn n acs b) m) as [m1|] eqn:E1; [|discriminate E]. apply (IH L m1 m' N E). clear IH E.
  unfold change_constraint in E1. destruct (find_constraint (con_key b) acs) as [a|] eqn:F; [|injection E1 as <-; exact H].
  destruct (neqs (constraint_diff d b) (constraint_diff d a)); [|injection E1 as <-; exact H]. apply find_some in F. destruct F as [_ F]. apply String.eqb_eq in F.
  destruct (is_index d a) eqn:K.
  - refine (silent_none d (KCon (qname n) L) _ m m1 _ E1 H). cbn [forallb]. rewrite !andb_true_iff. split; [|split; [|reflexivity]].
    + unfold silent. cbn [no_rename stmt_ops andb]. unfold drop_index_ops. destruct d; reflexivity.
    + destruct a; reflexivity.
  - destruct (String.string_dec (con_key b) L) as [G|G].
    + exfalso. unfold named in Nb. destruct (con_name b) as [nm|] eqn:Nm; [|discriminate Nb]. cbn [exec_all] in E1. rewrite drop_con_missing in E1; [discriminate E1|].
      assert (id_name nm = L) as -> by (rewrite <- G; unfold con_key, con_ident; rewrite Nm; reflexivity). exact H.
    + refine (silent_none d (KCon (qname n) L) _ m m1 _ E1 H). cbn [forallb]. rewrite !andb_true_iff. split; [|split; [|reflexivity]].
      * apply (about_silent_con d n _ _ []); [intros c []|]. split; [reflexivity|exact Logic.I].
      * apply (about_silent_con d n _ _ [a]); [intros c [<-|[]] _; rewrite label_key; congruence|]. split; [reflexivity|left; reflexivity].
Qed.

Theorem constraint_lost : forall d srt sdiff B A mb ma t u c nm s b stmts m, srt_ok srt ->
  describes d B mb -> describes d A ma ->
  In (CreateTable t) B -> In (CreateTable u) A -> qname (ct_name t) = qname (ct_name u) ->
  create_table_string d t <> create_table_string d u -> (d = Sp -> options_diff Sp (ct_options t) = options_diff Sp (ct_options u)) ->
  In c (ct_constraints t) -> is_inner_index c = false -> con_name c = Some nm -> sem_con d c = Some s ->
  In (id_name nm) (con_labels u) ->
  In b (ct_columns t) -> ~ In (id_name (c_name b)) (col_names u) -> sticky d b = false -> con_involves (id_name (c_name b)) s = true ->
  diff d srt sdiff (Some B) (Some A) = DOk stmts -> exec_all d stmts mb = Some m -> m (KCon (qname (ct_name t)) (id_name nm)) = None.
Proof.
  intros d srt sdiff B A mb ma t u c nm s b stmts m Hs DB DA It Iu Et Eo Hsp Ic Ni Nm Sc Lu Ib Nb St Inv E X.
  destruct (describes_entries d B mb DB) as [NB [VB _]]. destruct (describes_entries d A ma DA) as [NA _]. destruct DB as [CB _]. destruct DA as [CA _].
  set (k := KCon (qname (ct_name t)) (id_name nm)).
  assert (V : mb k = Some (VCon s)).
  { rewrite VB. apply In_assoc; [exact NB|]. unfold entries. apply in_flat_map. exists (CreateTable t). split; [exact It|]. cbn [stmt_entries]. unfold table_entries. right. apply in_or_app. right. apply in_or_app. left.
    apply in_flat_map. exists c. split; [exact Ic|]. unfold con_entries. rewrite Nm, Sc. destruct c; try discriminate Ni; left; reflexivity. }
  cbn [diff] in E. destruct (diff_ddl_shape d srt sdiff B A stmts CB CA E) as [changes [Ec ->]]. clear E.
  destruct (in_split _ _ It) as [p [q EB]].
  assert (Pn : forall x, In (CreateTable x) p \/ In (CreateTable x) q -> qname (ct_name x) <> qname (ct_name t)).
  { intros x Ix G. assert (Hx : In (CreateTable x) B) by (rewrite EB; destruct Ix as [Ix|Ix]; apply in_or_app; [left; exact Ix|right; right; exact Ix]).
    assert (x = t) by exact (table_names_eq d B x t CB NB Hx It G). subst x.
    pose proof (nodup_stmts d B CB NB) as ND. rewrite EB in ND. apply NoDup_remove_2 in ND. apply ND. apply in_or_app. exact Ix. }
  assert (Cx : forall x, In x p \/ In x q -> is_create x = true).
  { intros x Ix. rewrite forallb_forall in CB. apply CB. rewrite EB. destruct Ix as [Ix|Ix]; apply in_or_app; [left; exact Ix|right; right; exact Ix]. }
  rewrite EB in Ec. destruct (diff_stmts_split d srt sdiff p (CreateTable t) q A changes Ec) as [l1 [l [l2 [E1 [El [E2 ->]]]]]]. clear Ec.
  assert (Si : forall r lr, (forall x, In x r -> In x p \/ In x q) -> diff_stmts d srt sdiff r A = Ok lr -> forallb (silent d k) lr = true).
  { intros r lr Hr Er. apply forallb_forall. intros x Ix. destruct (diff_stmts_from d srt sdiff r A lr x Er Ix) as [z [lz [Iz [Ez Ixz]]]].
    assert (G : forallb (silent d k) lz = true).
    { apply (other_silent d srt sdiff A z lz _ _ Hs); [apply Cx, Hr; exact Iz| |exact Ez]. intros y ->. apply Pn. apply Hr. exact Iz. }
    rewrite forallb_forall in G. exact (G x Ixz). }
  pose proof (Si p l1 (fun x H => or_introl H) E1) as S1. pose proof (Si q l2 (fun x H => or_intror H) E2) as S2.
  assert (S0 : forallb (silent d k) (map drop1 (only_left_stmts B A) ++ only_left_stmts A B ++ l1) = true).
  { rewrite !forallb_app, S1, andb_true_r, andb_true_iff. split; apply forallb_forall; intros x Ix.
    - apply in_map_iff in Ix. destruct Ix as [y [<- Iy]]. apply only_left_in in Iy. apply drop_silent. rewrite forallb_forall in CB. apply CB. tauto.
    - apply only_left_in in Ix. destruct Ix as [Ix F]. rewrite forallb_forall in CA. pose proof (CA x Ix) as C. destruct x as [y|y| | |]; try discriminate C; [|reflexivity].
      apply create_silent_con. intro G. rewrite (find_table d B y t CB NB It G) in F. discriminate F. }
  replace (map drop1 (only_left_stmts B A) ++ only_left_stmts A B ++ l1 ++ l ++ l2) with ((map drop1 (only_left_stmts B A) ++ only_left_stmts A B ++ l1) ++ l ++ l2) in X by (rewrite <- !app_assoc; reflexivity).
  rewrite exec_all_app in X. destruct (exec_all d (map drop1 (only_left_stmts B A) ++ only_left_stmts A B ++ l1) mb) as [m1|] eqn:X1; [|discriminate X].
  rewrite exec_all_app in X. destruct (exec_all d l m1) as [m2|] eqn:X2; [|discriminate X]. apply (silent_none d k l2 m2 m S2 X). clear X S2.
  assert (V1 : m1 k = Some (VCon s) \/ m1 k = None) by (destruct (silent_exec d k _ mb m1 S0 X1) as [H|H]; [left; congruence|right; exact H]). clear X1 S0.
  unfold diff_stmt in El. rewrite (find_table d A t u CA NA Iu Et) in El. unfold diff_create_table in El.
  assert (Gd : (match d with Sp => neqs (options_diff d (ct_options t)) (options_diff d (ct_options u)) | _ => false end) = false).
  { destruct d; try reflexivity. unfold neqs, eqs. rewrite (Hsp eq_refl), String.eqb_refl. reflexivity. }
  rewrite Gd in El. unfold eqs in El at 1. destruct (String.eqb_spec (create_table_string d t) (create_table_string d u)) as [G|_]; [contradiction|].
  destruct (all_named (ct_constraints t) && all_named (ct_constraints u)) eqn:N; [|discriminate El]. apply andb_true_iff in N. destruct N as [Nt Nu].
  destruct (diff_tables d srt sdiff false t u) as [l0| | |] eqn:Ed; try discriminate El.
  assert (l = l0) by (destruct l0; congruence). subst l. clear El.
  assert (R : renamed (ct_name t) (ct_name u) = false).
  { unfold renamed, neqs, eqs. change (negb (String.eqb (qname (ct_name t)) (qname (ct_name u))) = false). rewrite Et, String.eqb_refl. reflexivity. }
  unfold diff_tables in Ed. unfold final_name, diff_rename in Ed. rewrite R in Ed. cbn [andb] in Ed.
  destruct (only_left_constraints d srt (ct_constraints u) (ct_constraints t)) as [added| | |] eqn:Ea; cbn [bind] in Ed; try discriminate Ed. injection Ed as <-. cbn [app] in X2.
  set (n := ct_name u) in *. assert (Ek : k = KCon (qname n) (id_name nm)) by (unfold k, n; rewrite Et; reflexivity).
  rewrite exec_all_app in X2. destruct (exec_all d (flat_map (drop_gone_constraint d sdiff (ct_name t) n (ct_constraints u)) (ct_constraints t)) m1) as [m3|] eqn:X3; [|discriminate X2].
  assert (V3 : m3 k = Some (VCon s) \/ m3 k = None).
  { assert (Q : forallb (silent d k) (flat_map (drop_gone_constraint d sdiff (ct_name t) n (ct_constraints u)) (ct_constraints t)) = true).
    { unfold k. apply (about_free d n). intros x Ix. apply in_flat_map in Ix. destruct Ix as [y [_ Ix]]. unfold drop_gone_constraint in Ix.
      destruct (find_constraint (con_key y) (ct_constraints u)); [destruct Ix|]. destruct (is_index d y); destruct Ix as [<-|[]]; cbn [about]; auto. }
    destruct (silent_exec d k _ m1 m3 Q X3) as [H|H]; [rewrite H; exact V1|right; exact H]. }
  clear V1 X3. rewrite exec_all_app in X2. destruct (exec_all d (diff_columns d sdiff n (ct_columns t) (ct_columns u)) m3) as [m4|] eqn:X4; [|discriminate X2].
  assert (V4 : m4 k = None).
  { destruct (in_split _ _ Ib) as [bp [bq Eb]]. unfold diff_columns in X4. rewrite Eb in X4 at 1. rewrite flat_map_app, <- app_assoc in X4. cbn [flat_map] in X4.
    assert (F : find_column (id_name (c_name b)) (ct_columns u) = None).
    { destruct (find_column (id_name (c_name b)) (ct_columns u)) as [y|] eqn:F; [|reflexivity]. exfalso. apply find_some in F. destruct F as [F1 F2]. apply String.eqb_eq in F2. apply Nb. unfold col_names. apply in_map_iff. exists y. auto. }
    assert (K : keep_hidden d b = false) by exact St.
    unfold diff_before_column in X4 at 2. rewrite F, K in X4. cbn [app] in X4.
    assert (Qa : forall l, (forall x, In x l -> In x (diff_columns d sdiff n (ct_columns t) (ct_columns u))) -> forallb (silent d k) l = true).
    { intros l Hl. unfold k. apply (about_free d n). intros x Ix. exact (columns_about d sdiff n [] _ _ x (Hl x Ix)). }
    rewrite exec_all_app in X4. destruct (exec_all d (flat_map (diff_before_column d sdiff n (ct_columns u)) bp) m3) as [m5|] eqn:X5; [|discriminate X4].
    assert (V5 : m5 k = Some (VCon s) \/ m5 k = None).
    { assert (Q : forallb (silent d k) (flat_map (diff_before_column d sdiff n (ct_columns u)) bp) = true).
      { apply Qa. intros x Ix. unfold diff_columns. rewrite Eb, flat_map_app. apply in_or_app. left. apply in_or_app. left. exact Ix. }
      destruct (silent_exec d k _ m3 m5 Q X5) as [H|H]; [rewrite H; exact V3|right; exact H]. }
    cbn [exec_all] in X4. match type of X4 with match exec d ?x m5 with _ => _ end = _ => destruct (exec d x m5) as [m6|] eqn:X6; [|discriminate X4] end.
    assert (V6 : m6 k = None).
    { cbn [exec stmt_ops action_ops] in X6. cbn [run] in X6. destruct (op_ok (Has (KTab (qname n))) m5); [|discriminate X6]. cbn [op_db] in X6.
      destruct (op_ok (DelCol (qname n) (id_name (c_name b))) m5) eqn:Ok5; [|discriminate X6]. injection X6 as <-. rewrite Ek in V5 |- *. cbv beta iota.
      destruct V5 as [V5|V5]; rewrite V5; [|reflexivity]. cbn [unless involves]. rewrite String.eqb_refl, Inv. reflexivity. }
    refine (silent_none d k _ m6 m4 _ X4 V6). apply Qa. intros x Ix. unfold diff_columns. rewrite Eb at 1. rewrite flat_map_app, <- app_assoc. apply in_or_app. right. cbn [flat_map]. rewrite <- app_assoc. apply in_or_app. right. exact Ix. }
  clear V3 X4. rewrite exec_all_app in X2. destruct (exec_all d (flat_map (change_constraint d sdiff false (ct_name t) n (ct_constraints u)) (ct_constraints t)) m4) as [m5|] eqn:X5; [|discriminate X2].
  assert (V5 : m5 k = None) by (rewrite Ek in *; exact (changed_none d sdiff false (ct_name t) n (ct_constraints u) (ct_constraints t) (id_name nm) m4 m5 Nt X5 V4)).
  refine (silent_none d k _ m5 m2 _ X2 V5). rewrite !forallb_app, !andb_true_iff. split; [|split].
  - apply forallb_forall. intros x Ix. apply in_map_iff in Ix. destruct Ix as [y [<- Iy]]. unfold only_left_constraints in Ea. destruct (append_in d srt _ _ _ y Hs Ea Iy) as [[]|G]. apply filter_In in G. destruct G as [_ G].
    assert (Ny : con_label y <> id_name nm).
    { intro H. destruct (find_constraint (con_key y) (ct_constraints t)) as [z|] eqn:Fz; [discriminate G|]. pose proof (find_none _ _ Fz c Ic) as Hc. cbv beta in Hc. rewrite <- (label_key y), H in Hc. unfold con_key, con_ident in Hc. rewrite Nm in Hc. unfold eqs in Hc. rewrite String.eqb_refl in Hc. discriminate Hc. }
    unfold add_constraint. destruct (is_index d y) eqn:K; [destruct y; reflexivity|]. unfold k. apply (about_silent_con d n _ _ [y]); [intros z [<-|[]] _; exact Ny|]. split; [reflexivity|left; reflexivity].
  - unfold k. apply (about_free d n). intros x Ix. exact (options_about d sdiff n [] _ _ x Ix).
  - unfold k. apply (about_free d n). intros x Ix. exact (row_about d sdiff n [] _ _ x Ix).
Qed.

(** A schema that can be created by a database that enforces dependencies declares a table before its indexes. *)
Lemma dep_creates : forall d l m m', forallb is_create l = true -> dep_exec_all d (map forget_ine l) m = Some m' -> exec_all d (map forget_ine l) m = Some m'.
Proof.
  induction l as [|s l IH]; intros m m' C E; [exact E|]. cbn [forallb] in C. apply andb_true_iff in C. destruct C as [C1 C2]. cbn [map dep_exec_all] in E. unfold dep_exec in E. cbn [map exec_all].
  destruct (exec d (forget_ine s) m) as [m1|]; [|discriminate E]. destruct s; try discriminate C1; cbn [forget_ine removes] in E;
    (match type of E with context [if ?b then _ else _] => destruct b; [|discriminate E] end; exact (IH m1 m' C2 E)).
Qed.
Lemma dep_describes : forall d l m, forallb is_create l = true -> dep_exec_all d (map forget_ine l) empty_db = Some m -> describes d l m.
Proof. intros d l m C E. split; [exact C|]. exact (dep_creates d l empty_db m C E). Qed.
Lemma dep_all_app : forall d a b m, dep_exec_all d (a ++ b) m = match dep_exec_all d a m with Some m' => dep_exec_all d b m' | None => None end.
Proof. induction a as [|s a IH]; intros b m; [reflexivity|]. cbn [app dep_exec_all]. destruct (dep_exec d s m) as [m'|]; [apply IH|reflexivity]. Qed.
Lemma table_first : forall d B mb t i, forallb is_create B = true -> dep_exec_all d (map forget_ine B) empty_db = Some mb ->
  In (CreateTable t) B -> In (CreateIndex i) B -> qname (cx_table i) = qname (ct_name t) -> exists p q r, B = p ++ CreateTable t :: q ++ CreateIndex i :: r.
Proof.
  intros d B mb t i CB E It Ii T. pose proof (dep_describes d B mb CB E) as DB. destruct (describes_entries d B mb DB) as [NB _].
  destruct (in_split _ _ Ii) as [p [r EB]]. rewrite EB, map_app, dep_all_app in E. destruct (dep_exec_all d (map forget_ine p) empty_db) as [m|] eqn:Ep; [|discriminate E].
  assert (Cp : forallb is_create p = true) by (rewrite EB, forallb_app in CB; apply andb_true_iff in CB; tauto).
  pose proof (dep_describes d p m Cp Ep) as Dp. destruct (describes_entries d p m Dp) as [Np [Vp _]].
  cbn [map dep_exec_all] in E. unfold dep_exec in E. destruct (exec d (forget_ine (CreateIndex i)) m) as [m1|] eqn:E1; [|discriminate E].
  cbn [forget_ine removes] in E. match type of E with context [new_intact d ?s m m1] => destruct (new_intact d s m m1) eqn:Ni; [|discriminate E] end. clear E.
  cbn [forget_ine exec cx_ifnotexists andb stmt_ops create_index_ops run cx_name] in E1.
  destruct (op_ok (Add (KIdx (qname (cx_name i))) (VIdx (sem_index d i))) m) eqn:K; [|unfold sem_index in E1, K; cbn [cx_table cx_unique cx_columns cx_using cx_pre cx_post] in E1; rewrite K in E1; discriminate E1].
  assert (Em : m1 = op_db (Add (KIdx (qname (cx_name i))) (VIdx (sem_index d i))) m) by (unfold sem_index in E1, K; cbn [cx_table cx_unique cx_columns cx_using cx_pre cx_post] in E1; rewrite K in E1; injection E1 as <-; reflexivity).
  assert (Pt : present (m (KTab (qname (cx_table i)))) = true).
  { unfold new_intact in Ni. match type of Ni with forallb _ ?l = true => change l with [(KIdx (qname (cx_name i)), VIdx (sem_index d i))] in Ni end.
    unfold forallb at 1 in Ni. rewrite andb_true_r, !orb_true_iff in Ni. cbn [op_ok] in K. unfold fst, snd in Ni. destruct Ni as [[Ni|Ni]|Ni].
    - rewrite Ni in K. discriminate K.
    - subst m1. cbn in Ni. rewrite String.eqb_refl in Ni. discriminate Ni.
    - unfold intact in Ni. rewrite forallb_forall in Ni. specialize (Ni (KTab (qname (cx_table i))) (or_introl eq_refl)). subst m1. exact Ni. }
  rewrite Vp in Pt. destruct (assoc_key (KTab (qname (cx_table i))) (entries d p)) as [v|] eqn:Ea; [|discriminate Pt].
  destruct (assoc_in_stmt d p _ v Cp Np Ea) as [s [Is [Hh _]]]. destruct (hm_some _ _ _ _ Hh) as [_ Hb]. unfold belongs in Hb. cbn [owner] in Hb. destruct s as [x| | | |]; try discriminate Hb. apply String.eqb_eq in Hb.
  assert (x = t) by (apply (table_names_eq d B x t CB NB); [rewrite EB; apply in_or_app; left; exact Is|exact It|congruence]). subst x.
  destruct (in_split _ _ Is) as [p1 [p2 Epp]]. exists p1, p2, r. rewrite EB, Epp, <- app_assoc. reflexivity.
Qed.
