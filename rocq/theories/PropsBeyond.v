(** C08, C09, C43 beyond [printable]: CockroachDB's index methods and MySQL's BOOLEAN. *)
From Coq Require Import Lia.
From Verif Require Import GoStr Token Lexer Ast Parser Diff Db.
From Verif Require Import Printable PrintStmt PrintDdl Method PrintMethod PropsParse PropsRound PropsDiff GoSort GoSortFacts PropsSort.

(** * CockroachDB: index methods inside of a table *)

(** The parser steps over one token too many behind a method; where it was a comma the next
    item is read all the same, where it was the closing parenthesis the semicolon ends the
    table.  So tables with methods are read back. *)
Theorem C08_cockroach_methods_are_read_back_partial : forall srt l, printable_with_methods l = true ->
  (forall t, In (CreateTable t) l -> forall cs, 12 < List.length cs <= List.length (ct_constraints t) ->
     forallb (fun c => negb (is_pkey c)) (tl cs) = true -> srt cs = cs) ->
  parse Crdb srt (ddl_string Crdb l) = Ok (map without_comment l).
Proof.
  intros srt l H Hs. apply m_run; [|exact H]. intros s Hin. unfold first_kept, keeps_primary_first.
  destruct s as [t|x| | |]; try exact I; apply (Hs t Hin).
Qed.
Print Assumptions C08_cockroach_methods_are_read_back_partial.

(** Nothing is asked of the other statements: where there are no methods this is C08. *)
Theorem C08_cockroach_methods_extend_partial : forall l, printable Crdb l = true -> printable_with_methods l = true.
Proof.
  intros l H. unfold printable_with_methods, printable in *.
  assert (K : forall s, stmt_ok Crdb s = true -> without_methods s = s /\ methods_named s = true).
  { intros s S. destruct s as [t|x| | |]; try (split; reflexivity). cbn [stmt_ok] in S. unfold create_table_ok, constraints_ok in S. rewrite !andb_true_iff in S.
    destruct S as [[[_ [[C _] _]] _] _]. rewrite forallb_forall in C.
    assert (M : forall c, In c (ct_constraints t) -> methodless c = c /\ method_of c = None).
    { intros c Ic. specialize (C c Ic). destruct c as [| | |n u pre cols post|]; try (split; reflexivity). cbn [constraint_ok] in C. rewrite !andb_true_iff in C.
      destruct C as [_ P]. destruct post; [discriminate P|]. split; reflexivity. }
    split.
    - cbn [without_methods]. rewrite (map_ext_in methodless (fun c => c)) by (intros c Ic; apply (M c Ic)). rewrite map_id. destruct t; reflexivity.
    - cbn [methods_named]. rewrite forallb_forall. intros c Ic. rewrite (proj2 (M c Ic)). reflexivity. }
  rewrite forallb_forall in H. rewrite (map_ext_in without_methods (fun s => s)) by (intros s Is; apply (K s (H s Is))). rewrite map_id.
  rewrite andb_true_iff, !forallb_forall. split; [exact H|]. intros s Is. apply (K s (H s Is)).
Qed.
Print Assumptions C08_cockroach_methods_extend_partial.

Theorem C09_cockroach_methods_partial : forall srt s l, parse Crdb srt s = Ok l -> printable_with_methods l = true ->
  (forall t, In (CreateTable t) l -> forall cs, 12 < List.length cs <= List.length (ct_constraints t) ->
     forallb (fun c => negb (is_pkey c)) (tl cs) = true -> srt cs = cs) ->
  parse Crdb srt (ddl_string Crdb l) = Ok l.
Proof. intros srt s l P H Hs. rewrite (C08_cockroach_methods_are_read_back_partial srt l H Hs), (parse_no_comment Crdb srt s l P). reflexivity. Qed.
Print Assumptions C09_cockroach_methods_partial.

(** Methods of CREATE INDEX are not read back, neither in front of nor behind the columns. *)
Theorem C08_cockroach_index_method_refuted : exists x y, cx_post x = None /\ cx_pre y = None /\
  ddl_string Crdb [CreateIndex x] = ("CREATE INDEX i ON t USING hash (a);" ++ nl)%string /\
  ddl_string Crdb [CreateIndex y] = ("CREATE INDEX i ON t (a) USING hash;" ++ nl)%string /\
  forall srt, parse Crdb srt (ddl_string Crdb [CreateIndex x]) = Err /\ parse Crdb srt (ddl_string Crdb [CreateIndex y]) = Err.
Proof.
  exists (mkCX "" false false (mkON None (word "i")) (mkON None (word "t")) [] (Some (mkUsing (Some [word "hash"]) None)) (name1 "a") None),
         (mkCX "" false false (mkON None (word "i")) (mkON None (word "t")) [] None (name1 "a") (Some (mkUsing (Some [word "hash"]) None))).
  repeat split; reflexivity.
Qed.
Print Assumptions C08_cockroach_index_method_refuted.

Example C08_example_methods :
  let s := "create table t (a INT, b STRING, index i (a) using hash with (bucket_count = 8), constraint p primary key (a), unique index j (b) using gin); create table u (a INT, index k (a) using hash, index l (a));" in
  exists l, parse Crdb id_srt s = Ok l /\ printable_with_methods l = true /\ printable Crdb l = false /\
  ddl_string Crdb l =
    ("CREATE TABLE t (" ++ nl ++ "    a INT," ++ nl ++ "    b STRING," ++ nl ++ "    CONSTRAINT p PRIMARY KEY (a)," ++ nl
     ++ "    INDEX i (a) USING hash WITH (bucket_count = 8)," ++ nl ++ "    UNIQUE INDEX j (b) USING gin" ++ nl ++ ");" ++ nl
     ++ "CREATE TABLE u (" ++ nl ++ "    a INT," ++ nl ++ "    INDEX k (a) USING hash," ++ nl ++ "    INDEX l (a)" ++ nl ++ ");" ++ nl)%string.
Proof. eexists. repeat split; vm_compute; reflexivity. Qed.

(** * MySQL: BOOLEAN *)

(** [BOOLEAN] is printed as [TINYINT(1)], so it comes back as that type. *)
Definition unbool_type (t : datatype) : datatype :=
  if String.eqb (dt_type t) TOKEN_BOOLEAN then mkDT (dt_name t) TOKEN_TINYINT (dt_expr t) else t.
Definition unbool_column (c : column) : column :=
  mkCol (c_name c) (unbool_type (c_type c)) (c_default c) (c_notnull c) (c_notvisible c) (c_as c) (c_charset c) (c_collate c)
        (c_autoinc c) (c_onaction c) (c_comment c) (c_options c).
Definition unbool (s : stmt) : stmt :=
  match s with
  | CreateTable t => CreateTable (mkCT (ct_comment t) (ct_ifnotexists t) (ct_name t) (map unbool_column (ct_columns t))
                                       (ct_constraints t) (ct_options t) (ct_rowdel t))
  | s => s
  end.
Lemma unbool_column_string : forall d c, column_string d (unbool_column c) = column_string d c.
Proof.
  intros d c. destruct c as [n t df nn nv a cs co ai oa cm op]. unfold unbool_column, unbool_type. cbn -[String.eqb column_string].
  destruct (String.eqb (dt_type t) TOKEN_BOOLEAN); [|reflexivity]. destruct t; destruct d; reflexivity.
Qed.
Lemma unbool_string : forall d l, ddl_string d (map unbool l) = ddl_string d l.
Proof.
  intros d l. unfold ddl_string. rewrite map_map. f_equal. apply map_ext. intro s. destruct s as [t|x| | |]; try reflexivity.
  cbn [unbool stmt_string]. unfold create_table_string. cbn [ct_comment ct_ifnotexists ct_name ct_columns ct_constraints ct_options ct_rowdel].
  rewrite map_map, (map_ext _ (column_string d)) by apply unbool_column_string. reflexivity.
Qed.
Theorem C08_mysql_boolean_partial : forall srt l, printable My (map unbool l) = true ->
  (forall t, In (CreateTable t) l -> forall cs, 12 < List.length cs <= List.length (ct_constraints t) ->
     forallb (fun c => negb (is_pkey c)) (tl cs) = true -> srt cs = cs) ->
  parse My srt (ddl_string My l) = Ok (map without_comment (map unbool l)).
Proof.
  intros srt l H Hs. rewrite <- (unbool_string My l). apply C08_printed_schema_is_read_back_partial; [exact H|]. intros t It.
  apply in_map_iff in It. destruct It as [s [E Is]]. destruct s as [u|x| | |]; try discriminate E. inversion E. subst t. exact (Hs u Is).
Qed.
Print Assumptions C08_mysql_boolean_partial.

(** Normalising twice gives the text that normalising once gives. *)
Theorem C09_mysql_boolean_partial : forall srt l, printable My (map unbool l) = true -> map without_comment l = l ->
  (forall t, In (CreateTable t) l -> forall cs, 12 < List.length cs <= List.length (ct_constraints t) ->
     forallb (fun c => negb (is_pkey c)) (tl cs) = true -> srt cs = cs) ->
  exists l', parse My srt (ddl_string My l) = Ok l' /\ ddl_string My l' = ddl_string My l.
Proof.
  intros srt l H C Hs. eexists. split; [apply C08_mysql_boolean_partial; assumption|].
  rewrite <- (unbool_string My l). f_equal. rewrite map_map.
  rewrite <- C at 2. rewrite map_map. apply map_ext. intro s. destruct s; reflexivity.
Qed.
Print Assumptions C09_mysql_boolean_partial.

(** The schema itself does not come back. *)
Theorem C08_mysql_boolean_refuted : exists s l, forall srt, parse My srt s = Ok l /\
  ddl_string My l = ("CREATE TABLE t (" ++ nl ++ "    a TINYINT(1) NULL" ++ nl ++ ");" ++ nl)%string /\
  exists l', parse My srt (ddl_string My l) = Ok l' /\ l' <> l.
Proof.
  exists "CREATE TABLE t (a BOOLEAN);". eexists. intro srt. split; [reflexivity|]. split; [reflexivity|]. eexists. split; [reflexivity|]. discriminate.
Qed.
Print Assumptions C08_mysql_boolean_refuted.

(** BOOLEAN and TINYINT(1) are the same type, and texts that say the same are not told apart -
    but as soon as the table differs elsewhere the column is modified to what it is. *)
Theorem C43_mysql_boolean_refuted : exists b a n c, accepted My b = true /\ accepted My a = true /\
  described My (schema My b) = true /\ described My (schema My a) = true /\
  (exists t t', schema My b = [CreateTable t] /\ schema My a = [CreateTable t'] /\ In (column_string My c) (map (column_string My) (ct_columns t))
                /\ In c (ct_columns t')) /\
  exists r, diff_of My (schema My b) (schema My a) = DOk r /\ In (AlterTable "" n (ModifyColumn c)) r.
Proof.
  exists "CREATE TABLE t (a BOOLEAN, b INT);"%string, "CREATE TABLE t (a TINYINT(1), b BIGINT);"%string,
    (mkON None (word "t")), (mkCol (word "a") (mkDT "TINYINT" TOKEN_TINYINT (Some [word "1"])) None false false None None None false "" "" None).
  split; [vm_compute; reflexivity|]. split; [vm_compute; reflexivity|]. split; [vm_compute; reflexivity|]. split; [vm_compute; reflexivity|].
  split; [eexists _, _; split; [vm_compute; reflexivity|]; split; [vm_compute; reflexivity|]; split; left; vm_compute; reflexivity|].
  eexists. split; [vm_compute; reflexivity|]. cbn [In]. left. reflexivity.
Qed.
Print Assumptions C43_mysql_boolean_refuted.
Example C43_example_boolean :
  diff_of My (schema My "CREATE TABLE t (a BOOLEAN, b INT);") (schema My "CREATE TABLE t (a TINYINT(1), b INT);") = DNoDiff /\
  PropsDiff.printed My (diff_of My (schema My "CREATE TABLE t (a BOOLEAN, b INT);") (schema My "CREATE TABLE t (a TINYINT(1), b BIGINT);")) =
  Some ("ALTER TABLE t MODIFY a TINYINT(1) NULL;" ++ nl ++ "ALTER TABLE t MODIFY b BIGINT NULL;" ++ nl)%string.
Proof. split; vm_compute; reflexivity. Qed.
Example C08_example_boolean : exists l, parse My id_srt "CREATE TABLE t (a BOOLEAN NOT NULL, b INT);" = Ok l /\
  printable My l = false /\ printable My (map unbool l) = true /\ map without_comment l = l.
Proof. eexists. repeat split; vm_compute; reflexivity. Qed.

(** With the library's sort nothing is asked of the sort. *)
Corollary C08_go_sort_methods_partial : forall rnd l, printable_with_methods l = true ->
  parse Crdb (go_sort rnd) (ddl_string Crdb l) = Ok (map without_comment l).
Proof. intros rnd l H. apply C08_cockroach_methods_are_read_back_partial; [exact H|]. intros t _ cs _ K. apply go_sort_keeps. exact K. Qed.
Print Assumptions C08_go_sort_methods_partial.
Corollary C08_go_sort_boolean_partial : forall rnd l, printable My (map unbool l) = true ->
  parse My (go_sort rnd) (ddl_string My l) = Ok (map without_comment (map unbool l)).
Proof. intros rnd l H. apply C08_mysql_boolean_partial; [exact H|]. intros t _ cs _ K. apply go_sort_keeps. exact K. Qed.
Print Assumptions C08_go_sort_boolean_partial.
