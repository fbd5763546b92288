(** Properties of comparing two single tables (DiffCreateTable, exported by the dialect packages): C18, C44, C77. *)
From Coq Require Import Lia.
From Verif Require Import GoStr Token Lexer Ast Parser Diff Db DbFacts DepFacts AppendFacts Tidy Reconcile ReconcileFacts GenFacts LinesFacts DiffSpec DiffSame.
From Verif Require Import DiffTable PropsDiff PropsPath.
Local Open Scope list_scope.

(** * C18: one table is absent *)

(** An absent table is created, a table that is to be absent is dropped: by exactly one statement. *)
Theorem C18_absent_table_before : forall d srt sdiff nv a, diff_create_table_opt d srt sdiff nv None (Some a) = DOk [CreateTable a].
Proof. reflexivity. Qed.
Print Assumptions C18_absent_table_before.
Theorem C18_absent_table_after : forall d srt sdiff nv b,
  exists s, diff_create_table_opt d srt sdiff nv (Some b) None = DOk [s] /\ drops (CreateTable b) s.
Proof. intros d srt sdiff nv b. eexists. split; reflexivity. Qed.
Print Assumptions C18_absent_table_after.
Example C18_absent_table_example : exists t, schema Pg "CREATE TABLE public.t (a INTEGER);" = [CreateTable t] /\
  printed Pg (diff_create_table_opt Pg id_sort no_text false (Some t) None) = Some ("DROP TABLE public.t;
")%string /\
  printed Pg (diff_create_table_opt Pg id_sort no_text false None (Some t)) = Some ("CREATE TABLE public.t (
    a INTEGER
);
")%string.
Proof. eexists. split; [vm_compute; reflexivity|]. split; vm_compute; reflexivity. Qed.

Lemma append_one : forall s, (s ++ "")%string = s.
Proof. induction s as [|c s IH]; [reflexivity|]. cbn. rewrite IH. reflexivity. Qed.

(** * C77: a single table is compared as a schema of one table is *)

Lemma different_texts : forall d srt sdiff b a, qname (ct_name b) = qname (ct_name a) ->
  create_table_string d b <> create_table_string d a ->
  diff_create_table_opt d srt sdiff false (Some b) (Some a) = diff d srt sdiff (Some [CreateTable b]) (Some [CreateTable a]).
Proof.
  intros d srt sdiff b a N T. cbn [diff_create_table_opt diff]. unfold diff_ddl.
  replace (eqs (ddl_string d [CreateTable b]) (ddl_string d [CreateTable a])) with false.
  2: { symmetry. apply String.eqb_neq. cbn [ddl_string map concat_str stmt_string]. rewrite !append_one. exact T. }
  assert (E : forall x y, qname (ct_name x) = qname (ct_name y) -> find_stmt (CreateTable x) [CreateTable y] = Some (CreateTable y)).
  { intros x y Q. unfold find_stmt. cbn [find same_type stmt_name]. rewrite (objname_diff_qname (ct_name x)), (objname_diff_qname (ct_name y)), Q.
    unfold eqs. rewrite String.eqb_refl. reflexivity. }
  unfold only_left_stmts. cbn [filter]. rewrite (E b a N), (E a b (eq_sym N)). cbn [map_opt diff_stmts diff_stmt]. rewrite (E b a N).
  destruct (diff_create_table d srt sdiff false b a) as [l| | |] eqn:X; cbn [bind].
  - rewrite app_nil_r. cbn [app]. destruct l; [|reflexivity]. exfalso. revert X. unfold diff_create_table.
    destruct (match d with Sp => _ | _ => false end); [discriminate|]. destruct (eqs _ _); [discriminate|].
    destruct (_ && _); [|discriminate]. destruct (diff_tables d srt sdiff false b a) as [[|x r]| | |]; discriminate.
  - reflexivity.
  - exfalso. revert X. unfold diff_create_table.
    destruct (match d with Sp => _ | _ => false end); [discriminate|]. destruct (eqs _ _); [discriminate|].
    destruct (_ && _); [|discriminate]. destruct (diff_tables d srt sdiff false b a) as [[|x r]| | |]; discriminate.
  - reflexivity.
Qed.
(** Missing: Spanner tables with the same text but different options for the comparison, and tables of different names. *)
Theorem C77_same_as_schemas_partial : forall d srt sdiff b a, qname (ct_name b) = qname (ct_name a) ->
  create_table_string d b <> create_table_string d a \/ options_diff d (ct_options b) = options_diff d (ct_options a) \/ d <> Sp ->
  diff_create_table_opt d srt sdiff false (Some b) (Some a) = diff d srt sdiff (Some [CreateTable b]) (Some [CreateTable a]).
Proof.
  intros d srt sdiff b a N H. destruct (string_dec (create_table_string d b) (create_table_string d a)) as [E|E]; [|apply different_texts; assumption].
  destruct H as [H|H]; [contradiction|]. cbn [diff_create_table_opt diff]. unfold diff_ddl, diff_create_table.
  cbn [ddl_string map concat_str stmt_string]. rewrite E. unfold eqs. rewrite !String.eqb_refl.
  destruct H as [H|H].
  - rewrite H, neqs_refl. destruct d; reflexivity.
  - destruct d; try reflexivity. exfalso. apply H. reflexivity.
Qed.
Print Assumptions C77_same_as_schemas_partial.
Example C77_example : exists tb ta, schema Pg "CREATE TABLE t (a INTEGER);" = [CreateTable tb] /\
  schema Pg "CREATE TABLE t (a INTEGER, b TEXT NOT NULL);" = [CreateTable ta] /\
  qname (ct_name tb) = qname (ct_name ta) /\ create_table_string Pg tb <> create_table_string Pg ta /\
  printed Pg (diff_create_table_opt Pg id_sort no_text false (Some tb) (Some ta)) = Some ("ALTER TABLE t ADD COLUMN b TEXT NOT NULL;
")%string.
Proof.
  eexists _, _. split; [vm_compute; reflexivity|]. split; [vm_compute; reflexivity|]. split; [vm_compute; reflexivity|].
  split; [intro H; vm_compute in H; discriminate H|vm_compute; reflexivity].
Qed.

(** * C77: the option NOT VALID *)

(** The option UseAlterTableAddConstraintNotValid adds NOT VALID to the constraints that are added; it changes nothing else. *)
Definition validity (nv : bool) (s : stmt) : stmt :=
  match s with AlterTable c n (AddConstraint k _) => AlterTable c n (AddConstraint k nv) | _ => s end.
Definition validity_all (nv : bool) (r : dres) : dres := match r with DOk l => DOk (map (validity nv) l) | r => r end.

Section NotValid.
Variables (d : dialect) (srt : list constraint -> list constraint) (sdiff : string -> string -> string) (nv nv' : bool).
Notation V := (map (validity nv)).
Lemma map_flat_map : forall A B C (f : B -> C) (g : A -> list B) l, map f (flat_map g l) = flat_map (fun x => map f (g x)) l.
Proof. intros A B C f g. induction l as [|x l IH]; cbn [flat_map map]; [reflexivity|]. rewrite map_app, IH. reflexivity. Qed.
Ltac plain := intros; cbv beta zeta delta [diff_rename drop_gone_constraint diff_columns diff_before_column diff_common_column diff_default diff_notnull
    diff_options diff_table_options diff_row_deletion];
  repeat match goal with |- context [match ?x with _ => _ end] => destruct x; cbn [map validity app] end; try reflexivity.
Lemma nv_rename : forall b a, V (diff_rename sdiff b a) = diff_rename sdiff b a.
Proof. plain. Qed.
Lemma nv_drop : forall bn n acs b, V (drop_gone_constraint d sdiff bn n acs b) = drop_gone_constraint d sdiff bn n acs b.
Proof. plain. Qed.
Lemma nv_default : forall c n b a, V (diff_default d c n b a) = diff_default d c n b a.
Proof. plain. Qed.
Lemma nv_notnull : forall c n b a, V (diff_notnull c n b a) = diff_notnull c n b a.
Proof. plain. Qed.
Lemma nv_options : forall c n b a, V (diff_options c n b a) = diff_options c n b a.
Proof. plain. Qed.
Lemma nv_common : forall n b a, V (diff_common_column d sdiff n b a) = diff_common_column d sdiff n b a.
Proof.
  intros. unfold diff_common_column. cbv zeta. destruct d; rewrite ?map_app, ?nv_notnull, ?nv_options;
    repeat match goal with |- context [map (validity nv) (diff_default ?x ?c ?m ?y ?z)] => 
      replace (map (validity nv) (diff_default x c m y z)) with (diff_default x c m y z) by (unfold diff_default; destruct (_ && _); [reflexivity|]; destruct (_ && _); reflexivity) end;
    repeat match goal with |- context [if ?x then [_] else []] => destruct x end; reflexivity.
Qed.
Lemma nv_columns : forall n b a, V (diff_columns d sdiff n b a) = diff_columns d sdiff n b a.
Proof.
  intros. unfold diff_columns. rewrite map_app, map_flat_map, map_map. f_equal.
  apply flat_map_ext. intro x. unfold diff_before_column. destruct (find_column _ _); [apply nv_common|]. destruct (keep_hidden d x); reflexivity.
Qed.
Lemma nv_change : forall bn n acs b, V (change_constraint d sdiff nv' bn n acs b) = change_constraint d sdiff nv bn n acs b.
Proof.
  intros. unfold change_constraint. destruct (find_constraint _ _) as [a|]; [|reflexivity]. destruct (neqs _ _); [|reflexivity].
  destruct (is_index d a) eqn:I; [|reflexivity]. destruct a; try reflexivity.
Qed.
Lemma nv_add : forall n a, validity nv (add_constraint d sdiff nv' n a) = add_constraint d sdiff nv n a.
Proof. intros. unfold add_constraint. destruct (is_index d a); [|reflexivity]. destruct a; reflexivity. Qed.
Lemma nv_table_options : forall n b a, V (diff_table_options d sdiff n b a) = diff_table_options d sdiff n b a.
Proof.
  intros. unfold diff_table_options. destruct d; try reflexivity. rewrite map_app, map_flat_map, map_map. f_equal.
  apply flat_map_ext. intro x. destruct (is_auto_increment x); [reflexivity|]. destruct (find_option _ _); [|reflexivity]. destruct (neqs _ _); reflexivity.
Qed.
Lemma nv_row : forall n b a, V (diff_row_deletion d sdiff n b a) = diff_row_deletion d sdiff n b a.
Proof. intros. unfold diff_row_deletion. destruct d; try reflexivity. destruct (neqs _ _); [|reflexivity]. destruct b, a; reflexivity. Qed.
End NotValid.

Theorem C77_not_valid_only_marks : forall d srt sdiff nv nv' b a,
  diff_create_table_opt d srt sdiff nv b a = validity_all nv (diff_create_table_opt d srt sdiff nv' b a).
Proof.
  intros d srt sdiff nv nv' [b|] [a|]; try reflexivity. cbn [diff_create_table_opt]. unfold diff_create_table.
  destruct (match d with Sp => _ | _ => false end); [reflexivity|]. destruct (eqs _ _); [reflexivity|]. destruct (_ && _); [|reflexivity].
  unfold diff_tables. cbv zeta. destruct (only_left_constraints _ _ _) as [added| | |]; cbn [bind]; try reflexivity.
  match goal with |- match ?x with [] => _ | _ :: _ => _ end = validity_all nv (match ?y with [] => _ | _ :: _ => _ end) => assert (E : x = map (validity nv) y) end.
  { rewrite !map_app, nv_rename, nv_columns, nv_table_options, nv_row, !map_flat_map, map_map. repeat match goal with |- (_ ++ _)%list = _ => f_equal end.
    - apply flat_map_ext. intro x. symmetry. apply nv_drop.
    - apply flat_map_ext. intro x. symmetry. apply nv_change.
    - apply map_ext. intro x. symmetry. apply nv_add. }
  rewrite E. match goal with |- context [map (validity nv) ?y] => destruct y end; reflexivity.
Qed.
Print Assumptions C77_not_valid_only_marks.
Example C77_not_valid_example : exists tb ta, schema Pg "CREATE TABLE t (a INTEGER);" = [CreateTable tb] /\
  schema Pg "CREATE TABLE t (a INTEGER, b TEXT, CONSTRAINT k UNIQUE (a));" = [CreateTable ta] /\
  printed Pg (diff_create_table_opt Pg id_sort no_text true (Some tb) (Some ta)) = Some ("ALTER TABLE t ADD COLUMN b TEXT;
ALTER TABLE t ADD CONSTRAINT k UNIQUE (a) NOT VALID;
")%string.
Proof. eexists _, _. split; [vm_compute; reflexivity|]. split; vm_compute; reflexivity. Qed.

(** * C44: a renamed table *)

(** The table under another name *)
Definition called (n : objname) (t : create_table) : create_table :=
  mkCT (ct_comment t) (ct_ifnotexists t) n (ct_columns t) (ct_constraints t) (ct_options t) (ct_rowdel t).
(** with or without IF NOT EXISTS *)
Definition ine (x : bool) (t : create_table) : create_table :=
  mkCT (ct_comment t) x (ct_name t) (ct_columns t) (ct_constraints t) (ct_options t) (ct_rowdel t).

Section Rename.
Variables (t u : string).
Hypothesis NE : t <> u.
Definition moved (o : op) : op :=
  match o with
  | Fresh _ => Fresh u
  | Add k v => Add (rename_key u t k) (rename_value t u v)
  | o => o
  end.
(** Operations that create the table t *)
Definition creating (o : op) : Prop :=
  match o with
  | Fresh x => x = t
  | Add k _ => owned_by t k = true \/ owner k = None
  | Fail => True
  | _ => False
  end.
Lemma tu : String.eqb t u = false. Proof. apply String.eqb_neq. exact NE. Qed.
Lemma ut : String.eqb u t = false. Proof. apply String.eqb_neq. congruence. Qed.

Lemma back : forall k, owned_by t k = true \/ owner k = None -> rename_key t u (rename_key u t k) = k.
Proof.
  unfold owned_by. intros k [H|H]; destruct k; cbn [owner] in H; try discriminate H; cbn [rename_key]; try reflexivity;
    apply String.eqb_eq in H; rewrite <- H, !String.eqb_refl; reflexivity.
Qed.
Lemma not_owned : forall k, owned_by t k = true \/ owner k = None -> owned_by t (rename_key u t k) = false.
Proof.
  unfold owned_by. intros k [H|H]; destruct k; cbn [owner] in H; try discriminate H; cbn [rename_key owner]; try reflexivity;
    apply String.eqb_eq in H; rewrite <- H, String.eqb_refl; exact tu.
Qed.
Lemma key_moves : forall k x, owned_by t k = true \/ owner k = None -> owned_by t x = false ->
  key_eqb k (rename_key t u x) = key_eqb (rename_key u t k) x.
Proof.
  unfold owned_by. intros k x [H|H] G; destruct k; cbn [owner] in H; try discriminate H; destruct x; cbn [owner] in G; cbn [rename_key key_eqb]; try reflexivity;
    apply String.eqb_eq in H; rewrite <- H, ?String.eqb_refl.
  all: match goal with |- context [String.eqb ?x u] => rewrite (String.eqb_sym u x); destruct (String.eqb x u) eqn:E end;
    rewrite ?String.eqb_refl, ?G; reflexivity.
Qed.
Lemma present_map : forall A B (f : A -> B) o, present (option_map f o) = present o.
Proof. intros A B f [x|]; reflexivity. Qed.

Lemma moved_ok : forall o m, creating o -> op_ok (moved o) (rename_db t u m) = op_ok o m.
Proof.
  intros o m C. destruct o; cbn [creating] in C; try contradiction; cbn [moved op_ok]; [| |reflexivity].
  - unfold rename_db. rewrite (not_owned k C), (back k C), present_map. reflexivity.
  - rewrite C. unfold rename_db, owned_by. cbn [owner rename_key]. rewrite tu, String.eqb_refl, present_map. reflexivity.
Qed.
Lemma moved_db : forall o m, creating o -> db_eq (rename_db t u (op_db o m)) (op_db (moved o) (rename_db t u m)).
Proof.
  intros o m C x. destruct o; cbn [creating] in C; try contradiction; cbn [moved op_db]; [| |reflexivity].
  - unfold rename_db at 1. destruct (owned_by t x) eqn:O.
    + replace (key_eqb (rename_key u t k) x) with false.
      * unfold rename_db. rewrite O. reflexivity.
      * symmetry. destruct (key_eqb (rename_key u t k) x) eqn:E; [|reflexivity]. apply key_eqb_eq in E. subst x.
        rewrite (not_owned k C) in O. discriminate O.
    + rewrite (key_moves k x C O). destruct (key_eqb (rename_key u t k) x); [reflexivity|]. unfold rename_db. rewrite O. reflexivity.
  - rewrite C. unfold rename_db. destruct (owned_by t x) eqn:O.
    + destruct x; unfold owned_by in *; cbn [owner key_eqb] in *; try discriminate O; apply String.eqb_eq in O; rewrite <- O, ?ut; reflexivity.
    + destruct x; unfold owned_by in *; cbn [owner key_eqb rename_key] in *;
        try match goal with |- context [String.eqb ?x u] => rewrite (String.eqb_sym u x); destruct (String.eqb x u) eqn:E end;
        rewrite ?String.eqb_refl, ?O; reflexivity.
Qed.
Lemma moved_run : forall os m n, Forall creating os -> db_eq n (rename_db t u m) ->
  match Db.run os m with
  | Some m' => exists n', Db.run (map moved os) n = Some n' /\ db_eq n' (rename_db t u m')
  | None => True
  end.
Proof.
  induction os as [|o os IH]; intros m n F E; cbn [Db.run map].
  - exists n. split; [reflexivity|exact E].
  - inversion F as [|? ? C F']; subst. destruct (op_ok o m) eqn:K; [|exact I].
    rewrite (op_ok_eq _ _ _ E), (moved_ok o m C), K. apply IH; [exact F'|].
    apply (db_eq_trans _ (op_db (moved o) (rename_db t u m))); [apply op_db_eq, E|]. apply db_eq_sym, moved_db, C.
Qed.
End Rename.

Lemma creating_ops : forall d b, Forall (creating (qname (ct_name b))) (create_table_ops d b).
Proof.
  intros d b. unfold create_table_ops. constructor; [reflexivity|].
  assert (O : forall k, (match k with KCol x _ | KCon x _ | KOpt x _ | KRow x => x = qname (ct_name b) | KIdx _ => True | _ => False end) ->
    owned_by (qname (ct_name b)) k = true \/ owner k = None).
  { intros k H. destruct k; try contradiction; try (left; unfold owned_by; cbn [owner]; subst; apply String.eqb_refl). right. reflexivity. }
  rewrite !Forall_app. repeat split.
  - apply Forall_flat_map, Forall_forall. intros c _. constructor; [|constructor]. apply O. reflexivity.
  - apply Forall_flat_map, Forall_forall. intros c _. unfold add_con_ops.
    destruct c; match goal with x : option ident |- _ => destruct x end; cbn [con_name sem_con]; (constructor; [|constructor]); cbn [creating]; try exact I;
      apply O; first [reflexivity|exact I].
  - apply Forall_flat_map, Forall_forall. intros c _. unfold add_opt_ops. destruct d; try destruct (counter_option c); try (apply Forall_nil); (constructor; [|constructor]); apply O; reflexivity.
  - unfold add_row_ops. destruct (ct_rowdel b); [|constructor]. constructor; [|constructor]. apply O. reflexivity.
Qed.

Lemma called_ops : forall d n b, (d = My -> on_schema n = on_schema (ct_name b)) -> 
  create_table_ops d (called n b) = map (moved (qname (ct_name b)) (qname n)) (create_table_ops d b).
Proof.
  intros d n b M. set (t := qname (ct_name b)). set (u := qname n).
  unfold create_table_ops. cbn [called ct_name ct_columns ct_constraints ct_options ct_rowdel map moved]. rewrite !map_app, !map_flat_map. f_equal.
  f_equal; [|f_equal; [|f_equal]].
  - apply flat_map_ext. intro c. cbn [add_col_ops map moved rename_key rename_value]. fold t. rewrite String.eqb_refl. reflexivity.
  - apply flat_map_ext. intro c. unfold add_con_ops.
    destruct c; match goal with x : option ident |- _ => destruct x end; cbn [con_name sem_con map moved rename_key rename_value]; fold t; fold u; rewrite ?String.eqb_refl; try reflexivity.
    unfold intable_key, sem_intable. cbn [rename_key rename_value si_table si_unique si_cols si_using si_pre si_post]. fold t. fold u. rewrite ?String.eqb_refl.
    destruct d; try reflexivity. rewrite (M eq_refl). reflexivity.
  - apply flat_map_ext. intro c. unfold add_opt_ops. destruct d; try destruct (counter_option c); cbn [map moved rename_key rename_value]; fold t; rewrite ?String.eqb_refl; reflexivity.
  - unfold add_row_ops. destruct (ct_rowdel b); cbn [map moved rename_key rename_value]; fold t; rewrite ?String.eqb_refl; reflexivity.
Qed.

Lemma ine_texts : forall d t, create_table_string d (ine true t) <> create_table_string d (ine false t).
Proof.
  intros d t. unfold create_table_string. cbn [ine ct_comment ct_ifnotexists ct_name ct_columns ct_constraints ct_options ct_rowdel]. intro E.
  apply append_cancel in E. apply append_cancel in E. apply (f_equal String.length) in E. rewrite !append_length in E. cbn in E. lia.
Qed.
Lemma other_text : forall d t s, exists x, create_table_string d (ine x t) <> s.
Proof.
  intros d t s. destruct (string_dec (create_table_string d (ine true t)) s) as [E|E]; [|exists true; exact E].
  exists false. intro F. apply (ine_texts d t). congruence.
Qed.

Lemma exec_validity : forall d nv l m, exec_all d (map (validity nv) l) m = exec_all d l m.
Proof.
  intros d nv. induction l as [|s l IH]; intro m; cbn [map exec_all]; [reflexivity|].
  replace (exec d (validity nv s) m) with (exec d s m) by (destruct s as [| | | |c o []]; reflexivity).
  destruct (exec d s m); [apply IH|reflexivity].
Qed.

(** What creating the table under its new name gives *)
Lemma describes_called : forall d n x b db0, qname (ct_name b) <> qname n -> (d = My -> on_schema n = on_schema (ct_name b)) ->
  describes d [CreateTable b] db0 ->
  exists m1, describes d [CreateTable (ine x (called n b))] m1 /\ db_eq m1 (rename_db (qname (ct_name b)) (qname n) db0).
Proof.
  intros d n x b db0 Q M [_ E].
  change (match Db.run (create_table_ops d b) empty_db with Some m' => Some m' | None => None end = Some db0) in E.
  pose proof (moved_run (qname (ct_name b)) (qname n) Q (create_table_ops d b) empty_db empty_db (creating_ops d b)) as X.
  destruct (Db.run (create_table_ops d b) empty_db) as [m'|]; [|discriminate E]. injection E as E. subst m'.
  destruct X as [m1 [X1 X2]]; [intro k; unfold rename_db, empty_db; destruct (owned_by _ k); reflexivity|].
  exists m1. split; [|exact X2]. split; [reflexivity|]. rewrite <- (called_ops d n b M) in X1.
  change (match Db.run (create_table_ops d (called n b)) empty_db with Some m' => Some m' | None => None end = Some m1). rewrite X1. reflexivity.
Qed.
Lemma made_here : forall t os m m', Forall (creating t) os -> Db.run os m = Some m' -> forall u, t <> u -> m' (KTab u) = m (KTab u).
Proof.
  intros t. induction os as [|o os IH]; intros m m' F E u N; cbn [Db.run] in E; [injection E as E; subst; reflexivity|].
  inversion F as [|? ? C F']; subst. destruct (op_ok o m) eqn:K; [|discriminate E]. rewrite (IH _ _ F' E u N).
  destruct o; cbn [creating] in C; try contradiction; cbn [op_db]; try reflexivity.
  - replace (key_eqb k (KTab u)) with false; [reflexivity|]. symmetry. destruct k; cbn [key_eqb]; try reflexivity.
    destruct C as [C|C]; [|discriminate C]. unfold owned_by in C. cbn [owner] in C. apply String.eqb_eq in C. subst. apply String.eqb_neq. exact N.
  - subst. unfold owned_by. cbn [key_eqb owner]. apply String.eqb_neq in N. rewrite N. reflexivity.
Qed.

Lemma made_stays : forall t os m m', Forall (creating t) os -> Db.run os m = Some m' -> present (m (KTab t)) = true -> present (m' (KTab t)) = true.
Proof.
  intros t. induction os as [|o os IH]; intros m m' F E P; cbn [Db.run] in E; [injection E as E; subst; exact P|].
  inversion F as [|? ? C F']; subst. destruct (op_ok o m) eqn:K; [|discriminate E]. apply (IH _ _ F' E).
  destruct o; cbn [creating] in C; try contradiction; cbn [op_db]; try exact P.
  - destruct (key_eqb k (KTab t)); [reflexivity|exact P].
  - subst. rewrite key_eqb_refl. reflexivity.
Qed.

(** Missing: Spanner tables whose primary key or interleaving differ; MySQL tables that move to another schema; a new
    name that is the old one with its schema added (see below); foreign keys of other tables.  NOT VALID is not represented. *)
Theorem C44_renamed_table_reaches_target_partial : forall d srt sdiff nv b a db0 dba, srt_ok srt ->
  let n := new_name (ct_name b) (ct_name a) in
  qname (ct_name b) <> qname (ct_name a) -> qname (ct_name b) <> qname n ->
  (d = My -> on_schema n = on_schema (ct_name b)) ->
  options_diff d (ct_options b) = options_diff d (ct_options a) \/ d <> Sp ->
  create_table_string d b <> create_table_string d a ->
  describes d [CreateTable b] db0 -> describes d [CreateTable (called n a)] dba ->
  reconcilable d [CreateTable (called n b)] [CreateTable (called n a)] = true ->
  exists stmts m, diff_create_table d srt sdiff nv b a = DOk stmts /\ exec_all d stmts db0 = Some m /\ db_eq m dba.
Proof.
  intros d srt sdiff nv b a db0 dba Hs n Q Qn M O T Db Da R.
  assert (Rn : renamed (ct_name b) (ct_name a) = true).
  { unfold renamed. rewrite (objname_diff_qname (ct_name b)), (objname_diff_qname (ct_name a)). unfold neqs, eqs. apply String.eqb_neq in Q. rewrite Q. reflexivity. }
  assert (F : final_name (ct_name b) (ct_name a) = n).
  { unfold final_name, n, new_name. rewrite Rn. destruct (ct_name a) as [[s|] i]; reflexivity. }
  destruct (other_text d (called n b) (create_table_string d (called n a))) as [x Tx].
  destruct (describes_called d n x b db0 Qn M Db) as [m1 [D1 E1]].
  assert (To : text_ok d [CreateTable (ine x (called n b))] [CreateTable (called n a)] = true).
  { unfold text_ok. cbn [tables flat_map app all_pairs forallb ddl_string map concat_str stmt_string]. rewrite !append_one.
    pose proof Tx as Ty. apply String.eqb_neq in Ty. rewrite Ty. cbn [andb]. destruct (String.eqb (table_name _) (table_name _)); rewrite ?Ty; reflexivity. }
  pose proof (diff_reconciles d srt sdiff [CreateTable (ine x (called n b))] [CreateTable (called n a)] m1 dba Hs D1 Da R To) as K.
  pose proof (different_texts d srt sdiff (ine x (called n b)) (called n a) eq_refl Tx) as W. unfold ddl in K, W.
  rewrite <- W in K. clear W. cbn [diff_create_table_opt] in K.
  pose proof (C77_not_valid_only_marks d srt sdiff nv false (Some b) (Some a)) as V. cbn [diff_create_table_opt] in V.
  assert (So : match d with Sp => neqs (options_diff d (ct_options b)) (options_diff d (ct_options a)) | _ => false end = false).
  { destruct O as [O|O]; [rewrite O|]; destruct d; try reflexivity; [apply neqs_refl|]. exfalso. apply O. reflexivity. }
  assert (G : exists l, diff_create_table d srt sdiff false b a = DOk (AlterTable (sdiff (objname_diff (ct_name b)) (objname_diff n)) (ct_name b) (RenameTable n) :: l)
    /\ exists m, exec_all d l m1 = Some m /\ db_eq m dba).
  { revert K. unfold diff_create_table.
    rewrite So.
    cbn [ine called ct_options ct_constraints].
    rewrite So.
    replace (eqs (create_table_string d b) (create_table_string d a)) with false by (symmetry; apply String.eqb_neq; exact T).
    match goal with |- context [eqs ?p ?q] => replace (eqs p q) with false by (symmetry; apply String.eqb_neq; exact Tx) end.
    destruct (all_named (ct_constraints b) && all_named (ct_constraints a)); [|intros []].
    unfold diff_tables. cbv zeta. cbn [ine called ct_name ct_columns ct_constraints ct_options ct_rowdel]. rewrite F.
    assert (Fn : final_name n n = n) by (unfold final_name, renamed; rewrite neqs_refl; reflexivity). rewrite Fn.
    destruct (only_left_constraints _ _ _) as [added| | |]; cbn [bind]; try (intros []).
    unfold diff_rename. cbv zeta. rewrite Rn, F. unfold renamed. rewrite neqs_refl. cbn [app].
    match goal with |- match (match ?p with [] => _ | _ :: _ => _ end) with _ => _ end -> exists l, DOk (_ :: ?q) = _ /\ _ =>
      assert (PQ : p = q) end.
    { f_equal; [|f_equal; f_equal].
      - apply flat_map_ext. intro c. unfold drop_gone_constraint. destruct (find_constraint _ _); [reflexivity|]. destruct (is_index d c); [|reflexivity].
        unfold index_objname. destruct d; try reflexivity. rewrite (M eq_refl). reflexivity.
      - apply flat_map_ext. intro c. unfold change_constraint. destruct (find_constraint _ _); [|reflexivity]. destruct (neqs (constraint_diff d c) _); [|reflexivity].
        destruct (is_index d _); [|reflexivity]. unfold index_objname. destruct d; try reflexivity. rewrite (M eq_refl). reflexivity. }
    rewrite PQ. clear PQ. match goal with |- context [DOk (_ :: ?q)] => intro K; exists q; split; [reflexivity|]; destruct q end.
    - exists m1. split; [reflexivity|exact K].
    - exact K. }
  destruct G as [l [G [m [X1 X2]]]]. rewrite G in V. cbn [validity_all] in V.
  eexists. pose proof (exec_all_eq d l m1 (rename_db (qname (ct_name b)) (qname n) db0) E1) as Y. rewrite X1 in Y.
  destruct (exec_all d l (rename_db (qname (ct_name b)) (qname n) db0)) as [m2|] eqn:X3; [|contradiction].
  exists m2. split; [exact V|]. rewrite exec_validity. split; [|apply (db_eq_trans _ m); [apply db_eq_sym; exact Y|exact X2]].
  cbn [exec_all]. unfold exec at 1.
  destruct Db as [_ Db]. change (match Db.run (create_table_ops d b) empty_db with Some m' => Some m' | None => None end = Some db0) in Db.
  destruct (Db.run (create_table_ops d b) empty_db) as [m'|] eqn:Rb; [|discriminate Db]. injection Db as Db. subst m'.
  rewrite (made_here _ _ _ _ (creating_ops d b) Rb (qname n) Qn).
  replace (present (db0 (KTab (qname (ct_name b))))) with true; [exact X3|].
  symmetry. unfold create_table_ops in Rb. cbn [Db.run op_ok] in Rb. change (negb (present (empty_db (KTab (qname (ct_name b)))))) with true in Rb. cbv iota in Rb.
  refine (made_stays _ _ _ _ _ Rb _).
  - pose proof (creating_ops d b) as C. inversion C; assumption.
  - cbn [op_db]. rewrite key_eqb_refl. reflexivity.
Qed.
Print Assumptions C44_renamed_table_reaches_target_partial.
Example C44_reaches_example : exists tb ta, schema Pg "CREATE TABLE public.t (a INTEGER, b TEXT, CONSTRAINT k UNIQUE (a));" = [CreateTable tb] /\
  schema Pg "CREATE TABLE u (a INTEGER NOT NULL, c TEXT, CONSTRAINT l UNIQUE (c));" = [CreateTable ta] /\
  let n := new_name (ct_name tb) (ct_name ta) in
  qname (ct_name tb) <> qname (ct_name ta) /\ qname (ct_name tb) <> qname n /\ create_table_string Pg tb <> create_table_string Pg ta /\
  described Pg [CreateTable tb] = true /\ described Pg [CreateTable (called n ta)] = true /\
  reconcilable Pg [CreateTable (called n tb)] [CreateTable (called n ta)] = true /\
  printed Pg (diff_create_table Pg id_sort no_text true tb ta) = Some ("ALTER TABLE public.t RENAME TO public.u;
ALTER TABLE public.u DROP CONSTRAINT k;
ALTER TABLE public.u ALTER COLUMN a SET NOT NULL;
ALTER TABLE public.u DROP COLUMN b;
ALTER TABLE public.u ADD COLUMN c TEXT;
ALTER TABLE public.u ADD CONSTRAINT l UNIQUE (c) NOT VALID;
")%string.
Proof.
  eexists _, _. split; [vm_compute; reflexivity|]. split; [vm_compute; reflexivity|]. cbv zeta.
  split; [intro H; vm_compute in H; discriminate H|]. split; [intro H; vm_compute in H; discriminate H|]. split; [intro H; vm_compute in H; discriminate H|].
  repeat split; vm_compute; reflexivity.
Qed.
(** A table that is written with its schema on one side only is renamed to itself: the statement fails. *)
Theorem C44_renamed_to_itself_refuted : exists b a tb ta s r,
  schema Pg b = [CreateTable tb] /\ schema Pg a = [CreateTable ta] /\ described Pg [CreateTable tb] = true /\
  diff_create_table Pg id_sort no_text false tb ta = DOk (s :: r) /\ exec Pg s (catalogue Pg [CreateTable tb]) = None.
Proof.
  exists "CREATE TABLE public.t (a INTEGER);"%string, "CREATE TABLE t (a INTEGER);"%string. eexists _, _, _, _.
  split; [vm_compute; reflexivity|]. split; [vm_compute; reflexivity|]. split; [vm_compute; reflexivity|].
  split; vm_compute; reflexivity.
Qed.
Print Assumptions C44_renamed_to_itself_refuted.

(** A Spanner table whose primary key or interleaving differs is dropped and created anew, whatever its name: this also reaches the target. *)
Theorem C44_spanner_recreated_reaches_target : forall srt sdiff nv b a db0 dba, srt_ok srt ->
  options_diff Sp (ct_options b) <> options_diff Sp (ct_options a) -> tidy Sp [CreateTable b] = true ->
  describes Sp [CreateTable b] db0 -> describes Sp [CreateTable a] dba ->
  exists stmts m, diff_create_table Sp srt sdiff nv b a = DOk stmts /\ exec_all Sp stmts db0 = Some m /\ db_eq m dba.
Proof.
  intros srt sdiff nv b a db0 dba Hs N Tb Db Da.
  assert (R : reconcilable Sp [CreateTable b] [] = true).
  { unfold reconcilable. rewrite Tb. replace (same_style Sp [CreateTable b] []) with true; [reflexivity|].
    symmetry. unfold same_style, disjoint. apply andb_true_iff. split; apply forallb_forall; intros x _; reflexivity. }
  assert (T : text_ok Sp [CreateTable b] [] = true).
  { unfold text_ok. replace (String.eqb (ddl_string Sp [CreateTable b]) (ddl_string Sp [])) with false; [reflexivity|].
    symmetry. apply String.eqb_neq. cbn [ddl_string map concat_str stmt_string]. rewrite append_one. intro E. apply (f_equal String.length) in E.
    unfold create_table_string in E. rewrite !append_length in E. cbn [String.length] in E. lia. }
  assert (D0 : describes Sp [] empty_db) by (split; reflexivity).
  pose proof (diff_reconciles Sp srt sdiff [CreateTable b] [] db0 empty_db Hs Db D0 R T) as K.
  assert (X : diff Sp srt sdiff (Some [CreateTable b]) (Some []) = DOk [DropTable "" false (ct_name b)]).
  { cbn [diff]. unfold diff_ddl. unfold text_ok in T. replace (eqs (ddl_string Sp [CreateTable b]) (ddl_string Sp [])) with false; [reflexivity|].
    symmetry. apply String.eqb_neq. cbn [ddl_string map concat_str stmt_string]. rewrite append_one. intro E. apply (f_equal String.length) in E.
    unfold create_table_string in E. rewrite !append_length in E. cbn [String.length] in E. lia. }
  unfold ddl in X, K. rewrite X in K. destruct K as [m [K1 K2]].
  unfold diff_create_table. replace (neqs _ _) with true by (symmetry; unfold neqs, eqs; apply String.eqb_neq in N; rewrite N; reflexivity).
  eexists. assert (Y : odb_eq (exec_all Sp [CreateTable a] m) (Some dba)).
  { destruct Da as [_ Da]. change (match Db.run (create_table_ops Sp a) empty_db with Some m' => Some m' | None => None end = Some dba) in Da.
    pose proof (run_eq (create_table_ops Sp a) m empty_db K2) as Z. destruct (Db.run (create_table_ops Sp a) empty_db) as [m'|]; [|discriminate Da].
    injection Da as Da. subst m'. cbn [exec_all exec]. rewrite (K2 (KTab (qname (ct_name a)))). cbn [empty_db present]. rewrite andb_false_r.
    cbn [stmt_ops]. destruct (Db.run (create_table_ops Sp a) m); [exact Z|contradiction]. }
  destruct (exec_all Sp [CreateTable a] m) as [m2|] eqn:Z; [|contradiction]. exists m2. split; [reflexivity|]. split; [|exact Y].
  change (match Db.run [Wipe (qname (ct_name b))] db0 with Some m' => Some m' | None => None end = Some m) in K1.
  change (match Db.run [Wipe (qname (ct_name b))] db0 with Some m' => exec_all Sp [CreateTable a] m' | None => None end = Some m2).
  destruct (Db.run [Wipe (qname (ct_name b))] db0) as [m'|]; [|discriminate K1]. injection K1 as K1. subst m'. exact Z.
Qed.
Print Assumptions C44_spanner_recreated_reaches_target.
Example C44_recreated_example : exists tb ta, schema Sp "CREATE TABLE t (a INT64) PRIMARY KEY (a);" = [CreateTable tb] /\
  schema Sp "CREATE TABLE u (a INT64, b INT64) PRIMARY KEY (a, b);" = [CreateTable ta] /\
  options_diff Sp (ct_options tb) <> options_diff Sp (ct_options ta) /\ tidy Sp [CreateTable tb] = true /\
  described Sp [CreateTable tb] = true /\ described Sp [CreateTable ta] = true.
Proof.
  eexists _, _. split; [vm_compute; reflexivity|]. split; [vm_compute; reflexivity|]. split; [intro H; vm_compute in H; discriminate H|].
  repeat split; vm_compute; reflexivity.
Qed.

(** * C20: what comparing does to its second argument *)

(** The argument is changed only if the table is renamed, its new name has no schema and the old one has; then only
    its name changes, to the one the statements use. *)
Theorem C20_single_table_partial : forall d b a,
  after_effect d b a = a \/
  qname (ct_name b) <> qname (ct_name a) /\ on_schema (ct_name a) = None /\ on_schema (ct_name b) <> None /\
  after_effect d b a = called (new_name (ct_name b) (ct_name a)) a.
Proof.
  intros d b a. unfold after_effect. destruct (_ || _); [left; reflexivity|]. unfold final_name.
  destruct (renamed (ct_name b) (ct_name a)) eqn:R; [|left; destruct a; reflexivity]. cbn [andb].
  destruct a as [c i [s n] cols cons opts row]. cbn [ct_name on_schema on_name] in *. destruct s as [s|]; [left; reflexivity|].
  destruct (on_schema (ct_name b)) as [s|] eqn:S; [|left; reflexivity]. right. split; [|split; [reflexivity|split; [discriminate|]]].
  - intro Q. unfold renamed in R. rewrite (objname_diff_qname (ct_name b)), (objname_diff_qname (mkON None n)), Q, neqs_refl in R. discriminate R.
  - unfold called, new_name. cbn. rewrite S. reflexivity.
Qed.
Print Assumptions C20_single_table_partial.
(** A Spanner table that is dropped and created anew is not changed. *)
Theorem C20_recreated_unchanged : forall b a, options_diff Sp (ct_options b) <> options_diff Sp (ct_options a) -> after_effect Sp b a = a.
Proof. intros b a N. unfold after_effect, neqs, eqs. apply String.eqb_neq in N. rewrite N. reflexivity. Qed.
Print Assumptions C20_recreated_unchanged.
Example C20_recreated_example : exists tb ta, schema Sp "CREATE TABLE s.t (a INT64) PRIMARY KEY (a);" = [CreateTable tb] /\
  schema Sp "CREATE TABLE u (a INT64) PRIMARY KEY (a ASC);" = [CreateTable ta] /\
  options_diff Sp (ct_options tb) <> options_diff Sp (ct_options ta) /\ after_effect Sp tb ta = ta.
Proof.
  eexists _, _. split; [vm_compute; reflexivity|]. split; [vm_compute; reflexivity|]. split; [intro H; vm_compute in H; discriminate H|].
  vm_compute. reflexivity.
Qed.

(** * C77: a Spanner table that prints the same *)

(** Trees (not read from a text) that print the same but compare as different: the single tables are dropped and created anew, the schemas are equal. *)
Theorem C77_spanner_same_text_refuted : exists b a, qname (ct_name b) = qname (ct_name a) /\
  create_table_string Sp b = create_table_string Sp a /\
  diff_create_table_opt Sp id_sort no_text false (Some b) (Some a) <> diff Sp id_sort no_text (Some [CreateTable b]) (Some [CreateTable a]).
Proof.
  set (t := fun n => mkCT "" false (mkON None (mkIdent "t" "" "t")) [] [] [mkOpt "PRIMARY KEY" (Some [mkIdent n "" "x"])] None).
  exists (t "x"%string), (t "y"%string). split; [reflexivity|]. split; [reflexivity|]. vm_compute. discriminate.
Qed.
Print Assumptions C77_spanner_same_text_refuted.
