(** C85, continued: an index that is new is there before any table changes, and stays. *)
From Verif Require Import GoStr Token Ast Parser Diff Db DbFacts AppendFacts DiffTable DiffPair DiffSound Tidy Reconcile ReconcileFacts DiffSpec Frame
  DbDep DepFacts DbRefuse DbKeyed DoomFacts PropsDiff PropsDep PropsKeyed.
Local Open Scope list_scope.

(** Nothing that changes an object creates an index that is new. *)
Lemma new_index_silent : forall d srt sdiff B A j changes, srt_ok srt ->
  forallb is_create B = true -> forallb is_create A = true -> NoDup (map fst (entries d A)) ->
  (forall i, In (CreateIndex i) B -> qname (cx_name i) <> qname (cx_name j)) -> In (CreateIndex j) A ->
  diff_stmts d srt sdiff B A = Ok changes -> forallb (silent d (KIdx (qname (cx_name j)))) changes = true.
Proof.
  intros d srt sdiff B A j changes Hs CB CA NA Nb Ij Ec. rewrite forallb_forall in CB, CA.
  apply forallb_forall. intros s I. destruct (diff_stmts_from d srt sdiff B A changes s Ec I) as [x [l [Ix [El Is]]]]. pose proof (CB x Ix) as C.
  destruct x as [t|i0| | |]; try discriminate C.
  - cbn [diff_stmt] in El. destruct (find_stmt (CreateTable t) A) as [p|] eqn:F; [|injection El as <-; destruct Is].
    destruct (found_table t A p F) as [u [-> [Iu Eu]]].
    assert (Fr : inner_free d (ct_name u) (qname (cx_name j)) (ct_constraints u)) by (apply (index_inner_free d A j u); try assumption; apply forallb_forall; exact CA).
    unfold diff_create_table in El. match type of El with context [if ?b then DOk _ else _] => destruct b end.
    + injection El as <-. destruct Is as [<-|[<-|[]]]; [reflexivity|]. apply create_silent_idx. exact Fr.
    + destruct (eqs (create_table_string d t) (create_table_string d u)); [injection El as <-; destruct Is|].
      destruct (all_named (ct_constraints t) && all_named (ct_constraints u)) eqn:N; [|discriminate El]. apply andb_true_iff in N. destruct N as [_ N].
      destruct (diff_tables d srt sdiff false t u) as [l0| | |] eqn:Et'; try discriminate El.
      assert (Il : In s l0) by (destruct l0; injection El as <-; exact Is).
      apply (about_silent_idx d (ct_name u) _ (ct_constraints u)); [exact N|exact Fr|]. apply (tables_about d srt sdiff false t u l0 s Hs); try assumption.
      unfold renamed, neqs, eqs. change (negb (String.eqb (qname (ct_name t)) (qname (ct_name u))) = false). rewrite Eu, String.eqb_refl. reflexivity.
  - cbn [diff_stmt] in El. destruct (find_stmt (CreateIndex i0) A) as [p|] eqn:F; [|injection El as <-; destruct Is].
    destruct (found_index i0 A p F) as [u [-> [Iu Eu]]]. destruct (neqs (create_index_diff d i0) (create_index_diff d u)); [|injection El as <-; destruct Is].
    pose proof (Nb i0 Ix) as Nn. injection El as <-. destruct Is as [<-|[<-|[]]].
    + unfold silent. cbn [no_rename stmt_ops andb]. unfold drop_index_ops. destruct d; reflexivity.
    + unfold silent. cbn [no_rename stmt_ops create_index_ops andb]. apply mute_add. intro G. injection G as G. congruence.
Qed.
(** What silent statements leave behind was there before them. *)
Lemma dep_silent_back : forall d k v l m m', forallb (silent d k) l = true -> dep_exec_all d l m = Some m' -> m' k = Some v -> m k = Some v.
Proof.
  induction l as [|s l IH]; intros m m' Q E V; [injection E as <-; exact V|]. cbn [forallb] in Q. apply andb_true_iff in Q. destruct Q as [Q1 Q2].
  cbn [dep_exec_all] in E. destruct (dep_exec d s m) as [m1|] eqn:E1; [|discriminate E]. pose proof (IH m1 m' Q2 E V) as V1. unfold dep_exec in E1.
  destruct (exec d s m) as [m2|] eqn:E2; [|discriminate E1]. unfold silent in Q1. apply andb_true_iff in Q1. destruct Q1 as [R Q1].
  assert (V2 : m2 k = Some v).
  { destruct (removes s); [injection E1 as <-; revert V1; unfold sweep; destruct (m2 k) as [w|]; [destruct (intact m2 k w); [auto|discriminate]|discriminate]|].
    destruct (new_intact d s m m2); [|discriminate E1]. injection E1 as <-. exact V1. }
  destruct (mute_exec d k s m m2 R Q1 E2) as [H|H]; congruence.
Qed.
Lemma early_part : forall (P C done todo : ddl), P ++ C = done ++ todo -> (forall c n a, ~ In (AlterTable c n a) P) ->
  (exists c n a, In (AlterTable c n a) done \/ exists r, todo = AlterTable c n a :: r) -> exists x, C = x ++ todo.
Proof.
  induction P as [|p P IH]; intros C dn todo E N H.
  - exists dn. exact E.
  - destruct dn as [|s dn].
    + exfalso. cbn [List.app] in E. destruct H as (c & n & a & [[]|[r H]]). rewrite H in E. injection E as E _. apply (N c n a). left. exact E.
    + cbn [List.app] in E. injection E as <- E. apply (IH C dn todo E); [intros c n a I; apply (N c n a); right; exact I|].
      destruct H as (c & n & a & [[H|H]|H]); [exfalso; apply (N c n a); left; exact H| |]; exists c, n, a; [left; exact H|right; exact H].
Qed.

(** Under the conditions of C19: once a table is changed, or is the next to be changed, every index
    that is new in the target is there. *)
Theorem C85_new_index_is_there_first : forall d srt sdiff before after mb ma done todo j m,
  srt_ok srt -> describes d before mb -> describes d after ma ->
  reconcilable d before after = true -> text_ok d before after = true -> in_order d before after = true ->
  diff d srt sdiff (Some before) (Some after) = DOk (done ++ todo) -> dep_exec_all d done mb = Some m ->
  (exists c n a, In (AlterTable c n a) done \/ exists r, todo = AlterTable c n a :: r) ->
  In (CreateIndex j) after -> mb (KIdx (qname (cx_name j))) = None ->
  m (KIdx (qname (cx_name j))) = Some (VIdx (sem_index d j)).
Proof.
  intros d srt sdiff before after mb ma dn todo j m Hs DB DA Rc To Io E X H Ij Nb.
  pose proof (C19_diff_is_executable_partial d srt sdiff before after mb ma Hs DB DA Rc To Io) as R. unfold executable in R. rewrite E in R. destruct R as [mf [Xf Ef]].
  rewrite DoomFacts.dep_all_app, X in Xf.
  pose proof (read_create d before mb DB) as CB. pose proof (read_create d after ma DA) as CA. pose proof (read_nodup d after ma DA) as NA.
  destruct (diff_ddl_shape d srt sdiff before after _ CB CA E) as [changes [Ec Sh]].
  assert (Q : forallb (silent d (KIdx (qname (cx_name j)))) changes = true).
  { apply (new_index_silent d srt sdiff before after j changes Hs CB CA NA); [|exact Ij|exact Ec]. intros i Ii G. pose proof (index_value d before mb i DB Ii) as V. rewrite G in V. congruence. }
  rewrite app_assoc in Sh. symmetry in Sh. destruct (early_part _ _ _ _ Sh) as [x Ex]; [|exact H|].
  { intros c n a I. apply in_app_or in I. rewrite forallb_forall in CB, CA. destruct I as [I|I].
    - apply in_map_iff in I. destruct I as [s [I Is]]. apply only_left_in in Is. destruct Is as [Is _]. pose proof (CB s Is) as K. destruct s; try discriminate K; discriminate I.
    - apply only_left_in in I. destruct I as [I _]. discriminate (CA _ I). }
  rewrite Ex, forallb_app in Q. apply andb_true_iff in Q. destruct Q as [_ Q].
  apply (dep_silent_back d _ _ todo m mf Q Xf). rewrite (Ef _). exact (index_value d after ma j DA Ij).
Qed.
Print Assumptions C85_new_index_is_there_first.

(** So a foreign key added to a table finds the unique index it needs, if that is new. *)
Theorem C85_added_key_finds_new_index : forall d srt sdiff before after mb ma done todo j m c n a ref cols,
  srt_ok srt -> describes d before mb -> describes d after ma ->
  reconcilable d before after = true -> text_ok d before after = true -> in_order d before after = true ->
  diff d srt sdiff (Some before) (Some after) = DOk (done ++ AlterTable c n a :: todo) -> dep_exec_all d done mb = Some m ->
  In (CreateIndex j) after -> mb (KIdx (qname (cx_name j))) = None ->
  backs ref cols (KIdx (qname (cx_name j))) (VIdx (sem_index d j)) = true ->
  exists k u, m k = Some u /\ backs ref cols k u = true.
Proof.
  intros d srt sdiff before after mb ma dn todo j m c n a ref cols Hs DB DA Rc To Io E X Ij Nb Bk.
  exists (KIdx (qname (cx_name j))), (VIdx (sem_index d j)). split; [|exact Bk].
  apply (C85_new_index_is_there_first d srt sdiff before after mb ma dn (AlterTable c n a :: todo) j m Hs DB DA Rc To Io E X); [|exact Ij|exact Nb].
  exists c, n, a. right. exists todo. reflexivity.
Qed.
Print Assumptions C85_added_key_finds_new_index.

Definition ni_after := "CREATE TABLE t (a INTEGER, CONSTRAINT f FOREIGN KEY (a) REFERENCES u (x)); CREATE TABLE u (x INTEGER); CREATE UNIQUE INDEX iu ON u (x);"%string.
Example C85_new_index_conditions : ordered Pg nk_before ni_after = true /\ described Pg (schema Pg nk_before) = true /\ described Pg (schema Pg ni_after) = true
  /\ catalogue Pg (schema Pg nk_before) (KIdx "iu") = None.
Proof. repeat split; vm_compute; reflexivity. Qed.
Example C85_new_index_text : printed Pg (diff_of Pg (schema Pg nk_before) (schema Pg ni_after)) = Some (
"CREATE UNIQUE INDEX iu ON u (x);
ALTER TABLE t ADD CONSTRAINT f FOREIGN KEY (a) REFERENCES u (x);
")%string.
Proof. vm_compute. reflexivity. Qed.
Example C85_new_index_backs : exists j, In (CreateIndex j) (schema Pg ni_after) /\ backs "u" [("x"%string, false)] (KIdx (qname (cx_name j))) (VIdx (sem_index Pg j)) = true.
Proof. eexists. split; [vm_compute; right; right; left; reflexivity|]. vm_compute. reflexivity. Qed.
