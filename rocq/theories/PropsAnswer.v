(** C89: a difference consists of exactly the statements that the two schemas ask for. *)
From Coq Require Import Lia Permutation.
From Verif Require Import GoStr Token Lexer Ast Parser Diff Db DbFacts AppendFacts Answer AnswerFacts PropsParse PropsDiff.

(** * Theorems *)
(** For any two schemas, however they came about: a statement is in the difference
    exactly if the schemas ask for it (Answer.v).  The names of the constraints of a
    new table are assumed to be distinct; C07 shows this for what is read from a text. *)
Theorem C89_difference_is_exact : forall d srt sdiff before after stmts, srt_ok srt -> distinct_names after ->
  diff d srt sdiff (Some before) (Some after) = DOk stmts -> forall s, In s stmts <-> asked d sdiff before after s.
Proof.
  intros d srt sdiff before after stmts Hs U E. pose proof (diff_asked d srt sdiff Hs before after U) as H. rewrite E in H. exact H.
Qed.
Print Assumptions C89_difference_is_exact.

(** No difference is reported only if the schemas print the same or ask for nothing;
    and it is reported if they ask for nothing. *)
Theorem C89_no_difference_is_exact : forall d srt sdiff before after, srt_ok srt -> distinct_names after ->
  (diff d srt sdiff (Some before) (Some after) = DNoDiff ->
     ddl_string d before = ddl_string d after \/ forall s, ~ asked d sdiff before after s)
  /\ (ddl_string d before = ddl_string d after \/ (forall s, ~ asked d sdiff before after s) ->
     forall stmts, diff d srt sdiff (Some before) (Some after) <> DOk stmts).
Proof.
  intros d srt sdiff before after Hs U. pose proof (diff_asked d srt sdiff Hs before after U) as H. split.
  - intro E. rewrite E in H. exact H.
  - intros [T|N] stmts E.
    + cbn [diff] in E. unfold diff_ddl in E. apply eqs_iff in T. rewrite T in E. discriminate E.
    + rewrite E in H. destruct stmts as [|s l]; [|apply (N s); apply H; left; reflexivity].
      cbn [diff] in E. unfold diff_ddl in E. destruct (eqs (ddl_string d before) (ddl_string d after)); [discriminate E|].
      destruct (map_opt drop_stmt (only_left_stmts before after)) as [drops|]; [|discriminate E].
      destruct (map_opt create_stmt (only_left_stmts after before)) as [creates|]; [|discriminate E].
      destruct (diff_stmts d srt sdiff before after) as [ch| | |]; try discriminate E. destruct (drops ++ creates ++ ch)%list; discriminate E.
Qed.
Print Assumptions C89_no_difference_is_exact.

(** Schemas read from texts are always compared: nothing is rejected, nothing panics. *)
Lemma label_option : forall cs, uniquely_named cs -> forallb named cs = true /\ NoDup (map label cs).
Proof.
  intros cs [H N]. split.
  - apply forallb_forall. intros c I. unfold named. destruct (H c I) as [n E]. rewrite E. reflexivity.
  - induction cs as [|c cs IH]; [constructor|]. cbn [map] in *. inversion N as [|? ? N1 N2]; subst. constructor.
    + intro F. apply N1. apply in_map_iff in F. destruct F as [x [F I]]. apply in_map_iff. exists x. split; [|exact I].
      destruct (H c (or_introl eq_refl)) as [n E]. destruct (H x (or_intror I)) as [m G]. unfold label in F. rewrite E, G in *. cbn. congruence.
    + apply IH; [|exact N2]. intros x I. apply H. right. exact I.
Qed.
Lemma left_constraints_ok : forall d srt l r, srt_ok srt -> uniquely_named l -> exists added, only_left_constraints d srt l r = Ok added.
Proof.
  intros d srt l r Hs H. destruct (label_option l H) as [N U]. unfold only_left_constraints.
  set (L := filter (fun c => match find_constraint (con_key c) r with None => true | Some _ => false end) l).
  assert (NL : forallb named ([] ++ L)%list = true).
  { rewrite forallb_forall in *. intros c Hc. apply filter_In in Hc. apply N. apply Hc. }
  assert (UL : NoDup (map con_key ([] ++ L)%list)).
  { cbn [app]. unfold L. rewrite (map_ext con_key label label_key). clear - U. induction l as [|x l IH]; [constructor|]. cbn [map] in U. inversion U; subst. cbn [filter].
    destruct (find_constraint _ _); [apply IH; assumption|]. cbn [map]. constructor; [|apply IH; assumption]. intro F. apply H1. apply in_map_iff in F.
    destruct F as [z [F1 F2]]. apply filter_In in F2. rewrite <- F1. apply in_map. apply F2. }
  destruct (append_all d srt Hs L [] NL UL) as [cs [E _]]. exists cs. exact E.
Qed.
Lemma compared : forall d srt sdiff before after, srt_ok srt ->
  (forall t, In (CreateTable t) before -> uniquely_named (ct_constraints t)) -> (forall t, In (CreateTable t) after -> uniquely_named (ct_constraints t)) ->
  exists l, diff_stmts d srt sdiff before after = Ok l.
Proof.
  intros d srt sdiff before after Hs NB NA. induction before as [|s before IH]; [exists []; reflexivity|]. cbn [diff_stmts].
  destruct IH as [l E]; [intros t I; apply NB; right; exact I|]. rewrite E.
  assert (S : exists k, diff_stmt d srt sdiff s after = Ok k).
  { unfold diff_stmt. destruct s as [b|i| | |]; try (eexists; reflexivity).
    - destruct (find_stmt (CreateTable b) after) as [y|] eqn:F; [|eexists; reflexivity]. destruct y as [a| | | |]; try (eexists; reflexivity).
      apply find_stmt_table in F. apply first_in in F. unfold diff_create_table.
      destruct (match d with Sp => neqs (options_diff d (ct_options b)) (options_diff d (ct_options a)) | _ => false end); [eexists; reflexivity|].
      destruct (eqs (create_table_string d b) (create_table_string d a)); [eexists; reflexivity|].
      destruct (label_option _ (NB b (or_introl eq_refl))) as [N1 _]. destruct (label_option _ (NA a F)) as [N2 _]. unfold all_named. rewrite N1, N2. cbn [andb].
      unfold diff_tables. cbv zeta. destruct (left_constraints_ok d srt (ct_constraints a) (ct_constraints b) Hs (NA a F)) as [added A]. rewrite A. cbn [bind].
      match goal with |- context [match (?u ++ ?v)%list with _ => _ end] => destruct (u ++ v)%list end; eexists; reflexivity.
    - destruct (find_stmt (CreateIndex i) after) as [y|]; [|eexists; reflexivity]. destruct y as [|j| | |]; try (eexists; reflexivity).
      destruct (neqs _ _); eexists; reflexivity. }
  destruct S as [k K]. rewrite K. cbn [bind]. eexists. reflexivity.
Qed.
(** Any two accepted texts of PostgreSQL, CockroachDB and MySQL *)
Theorem C89_any_two_texts : forall d srt sdiff s1 s2 before after, d <> Sp -> srt_ok srt ->
  parse d srt s1 = Ok before -> parse d srt s2 = Ok after ->
  (exists stmts, diff d srt sdiff (Some before) (Some after) = DOk stmts /\ forall s, In s stmts <-> asked d sdiff before after s)
  \/ (diff d srt sdiff (Some before) (Some after) = DNoDiff /\
      (ddl_string d before = ddl_string d after \/ forall s, ~ asked d sdiff before after s)).
Proof.
  intros d srt sdiff s1 s2 before after Nd Hs P1 P2.
  assert (NB : forall t, In (CreateTable t) before -> uniquely_named (ct_constraints t)).
  { intros t I. apply (C07_constraints_uniquely_named_partial d srt s1 before t Hs P1 I). intro F. contradiction. }
  assert (NA : forall t, In (CreateTable t) after -> uniquely_named (ct_constraints t)).
  { intros t I. apply (C07_constraints_uniquely_named_partial d srt s2 after t Hs P2 I). intro F. contradiction. }
  assert (U : distinct_names after) by (intros t I; apply (label_option _ (NA t I))).
  destruct (C06_only_creates d srt sdiff s1 s2 before after Hs P1 P2) as [_ [NS _]].
  destruct (C89_no_difference_is_exact d srt sdiff before after Hs U) as [ND _].
  pose proof (C89_difference_is_exact d srt sdiff before after) as X.
  destruct (diff d srt sdiff (Some before) (Some after)) as [stmts| | |] eqn:E.
  - left. exists stmts. split; [reflexivity|]. apply X; auto.
  - right. split; [reflexivity|]. apply ND. reflexivity.
  - contradiction.
  - exfalso. cbn [diff] in E. unfold diff_ddl in E. destruct (eqs (ddl_string d before) (ddl_string d after)); [discriminate E|].
    destruct (map_opt drop_stmt (only_left_stmts before after)) as [drops|]; [|discriminate E].
    destruct (map_opt create_stmt (only_left_stmts after before)) as [creates|]; [|discriminate E].
    destruct (compared d srt sdiff before after Hs NB NA) as [ch C]. rewrite C in E. destruct (drops ++ creates ++ ch)%list; discriminate E.
Qed.
Print Assumptions C89_any_two_texts.

(** Read off: tables are dropped and created exactly when they are on one side only,
    or if a Spanner table has other options. *)
Theorem C89_tables_dropped : forall d srt sdiff before after stmts c e n, srt_ok srt -> distinct_names after ->
  diff d srt sdiff (Some before) (Some after) = DOk stmts ->
  (In (DropTable c e n) stmts <-> e = false /\ exists t, In (CreateTable t) before /\ n = ct_name t /\
     ((none_with (for_table (qname n)) after /\ c = ""%string)
      \/ (d = Sp /\ exists t', first_with (for_table (qname n)) after (CreateTable t') /\ options_diff d (ct_options t) <> options_diff d (ct_options t')
          /\ c = sdiff (options_string d (ct_options t)) (options_string d (ct_options t'))))).
Proof.
  intros d srt sdiff before after stmts c e n Hs U E. rewrite (C89_difference_is_exact d srt sdiff before after stmts Hs U E). split.
  - intro A. inversion A; subst.
    + split; [reflexivity|]. exists t. auto.
    + split; [reflexivity|]. exists b. split; [assumption|]. split; [reflexivity|]. right. match goal with R : recreate _ _ _ |- _ => destruct R end.
      split; [assumption|]. exists a. auto.
    + match goal with T : table_change _ _ _ _ _ |- _ => inversion T end. destruct y; discriminate. destruct y; discriminate.
  - intros [-> [t [I [-> [[N ->]|[D [t' [F [O ->]]]]]]]]].
    + apply as_drop_table; assumption.
    + apply as_recreate_drop; try assumption. split; assumption.
Qed.
Print Assumptions C89_tables_dropped.
Theorem C89_tables_created : forall d srt sdiff before after stmts t, srt_ok srt -> distinct_names after ->
  diff d srt sdiff (Some before) (Some after) = DOk stmts ->
  (In (CreateTable t) stmts <-> (In (CreateTable t) after /\ none_with (for_table (qname (ct_name t))) before)
     \/ (d = Sp /\ exists b, In (CreateTable b) before /\ first_with (for_table (qname (ct_name b))) after (CreateTable t)
         /\ options_diff d (ct_options b) <> options_diff d (ct_options t))).
Proof.
  intros d srt sdiff before after stmts t Hs U E. rewrite (C89_difference_is_exact d srt sdiff before after stmts Hs U E). split.
  - intro A. inversion A; subst.
    + left. auto.
    + right. match goal with R : recreate _ _ _ |- _ => destruct R end. split; [assumption|]. exists b. auto.
    + match goal with T : table_change _ _ _ _ _ |- _ => inversion T end. destruct y; discriminate. destruct y; discriminate.
  - intros [[I N]|[D [b [I [F O]]]]]; [apply as_create_table; assumption|]. apply (as_recreate_create d sdiff before after b t); try assumption. split; assumption.
Qed.
Print Assumptions C89_tables_created.
(** Columns are added exactly to altered tables that lacked them. *)
Theorem C89_columns_added : forall d srt sdiff before after stmts c n col, srt_ok srt -> distinct_names after ->
  diff d srt sdiff (Some before) (Some after) = DOk stmts ->
  (In (AlterTable c n (AddColumn col)) stmts <-> exists b a, In (CreateTable b) before /\ first_with (for_table (qname (ct_name b))) after (CreateTable a)
     /\ ~ recreate d b a /\ create_table_string d b <> create_table_string d a /\ n = ct_name a /\ In col (ct_columns a)
     /\ none_with (column_called (id_name (c_name col))) (ct_columns b) /\ c = sdiff "" (column_string d col)).
Proof.
  intros d srt sdiff before after stmts c n col Hs U E. rewrite (C89_difference_is_exact d srt sdiff before after stmts Hs U E). split.
  - intro A. inversion A as [| | | | | | | |b a s I F R T C]; subst. inversion C; subst.
    + match goal with X : column_change _ _ _ _ |- _ => inversion X end.
    + exists b, a. repeat (split; [assumption || reflexivity|]). reflexivity.
    + destruct y; discriminate.
    + destruct y; discriminate.
  - intros [b [a [I [F [R [T [-> [J [N ->]]]]]]]]]. apply (as_change_table d sdiff before after b a); try assumption. apply tc_add_column; assumption.
Qed.
Print Assumptions C89_columns_added.
Example C89_example : exists stmts,
  diff_of Pg (schema Pg "CREATE TABLE t (a TEXT, b TEXT); CREATE TABLE u (x TEXT);") (schema Pg "CREATE TABLE t (a TEXT NOT NULL, c TEXT); CREATE INDEX i ON t (a);") = DOk stmts
  /\ List.length stmts = 5 /\ distinct_names (schema Pg "CREATE TABLE t (a TEXT NOT NULL, c TEXT); CREATE INDEX i ON t (a);").
Proof.
  eexists. split; [vm_compute; reflexivity|]. split; [reflexivity|]. intros t I. vm_compute in I. destruct I as [I|[I|[]]]; [|discriminate I].
  injection I as <-. constructor.
Qed.
(** An index that is new is asked for. *)
Example C89_asked_example : exists t u i, schema Pg "CREATE TABLE t (a TEXT); CREATE INDEX i ON t (a);" = [CreateTable t; CreateIndex i]
  /\ asked Pg (fun _ _ => ""%string) [CreateTable u] [CreateTable t; CreateIndex i] (CreateIndex i).
Proof.
  eexists _, (mkCT "" false (mkON None (mkIdent "u" "" "u")) [] [] [] None), _. split; [vm_compute; reflexivity|]. apply as_create_index; [right; left; reflexivity|].
  intros y [<-|[]] F. exact F.
Qed.
