(** C82: what showing a PostgreSQL or Spanner database does not tell, whatever the database. *)
From Verif Require Import GoStr Token Ast Parser Apply Generate Show ShowPg Resolve Process.
Local Open Scope string_scope.
Local Open Scope list_scope.

(** A database with everything taken out that information_schema.columns,
    table_constraints, key_column_usage and referential_constraints, as they are asked, do
    not tell: details of types, what foreign keys refer to, the conditions of CHECK
    constraints, and which tables are views. *)
Definition dull_kind (k : p_kind) : p_kind :=
  match k with PForeign _ _ u d => PForeign "" [] u d | PCheck _ => PCheck "" | k => k end.
Definition dull_constraint (c : p_constraint) : p_constraint := mkPConstraint (pk_name c) (dull_kind (pk_kind c)) (pk_columns c).
Definition dull_column (c : p_column) : p_column := mkPColumn (pc_name c) (pc_type c) (pc_length c) "" (pc_nullable c) (pc_default c).
Definition dull (t : p_table) : p_table :=
  mkPTable (pt_schema t) (pt_name t) false (map dull_column (pt_columns t)) (map dull_constraint (pt_constraints t)) (pt_indexes t).
(** Two databases that differ in nothing else. *)
Definition alike (db db' : list p_table) : Prop := map dull db = map dull db'.

Lemma flat_map_map : forall A B C (f : B -> list C) (g : A -> B) l, flat_map f (map g l) = flat_map (fun x => f (g x)) l.
Proof. intros A B C f g l. induction l as [|x l IH]; [reflexivity|]. cbn. rewrite IH. reflexivity. Qed.
Lemma filter_map : forall A B (p : B -> bool) (g : A -> B) l, filter p (map g l) = map g (filter (fun x => p (g x)) l).
Proof. intros A B p g l. induction l as [|x l IH]; [reflexivity|]. cbn. rewrite IH. destruct (p (g x)); reflexivity. Qed.
Lemma order_map : forall A B (g : A -> B) le le' l, (forall a b, le' (g a) (g b) = le a b) -> order_by le' (map g l) = map g (order_by le l).
Proof.
  intros A B g le le' l H. unfold order_by. induction l as [|x l IH]; [reflexivity|]. cbn [map fold_right]. rewrite IH. clear IH.
  induction (fold_right (put le) [] l) as [|y r IH]; [reflexivity|]. cbn [map put]. rewrite H. destruct (le x y); [reflexivity|]. cbn [map]. rewrite <- IH. reflexivity.
Qed.
Lemma dull_referential : forall db, referential_rows (map dull db) = referential_rows db.
Proof.
  intro db. unfold referential_rows. rewrite flat_map_map. apply flat_map_ext. intro t. cbn [dull pt_constraints]. rewrite flat_map_map. apply flat_map_ext. intro c.
  cbn [dull_constraint pk_kind pk_name]. destruct (pk_kind c); reflexivity.
Qed.
Lemma dull_rows : forall db c, constraint_rows (map dull db) (dull_constraint c) = constraint_rows db c.
Proof.
  intros db c. unfold constraint_rows. rewrite dull_referential. cbn [dull_constraint pk_name].
  assert (forall r, constraint_row (dull_constraint c) r = constraint_row c r) as E. { intro r. unfold constraint_row. cbn [dull_constraint pk_name pk_kind pk_columns]. destruct (pk_kind c); reflexivity. }
  rewrite E. destruct (filter _ (referential_rows db)) as [|x l]; [reflexivity|]. apply map_ext. intro r. apply E.
Qed.
Lemma dull_text : forall db t, p_table_text (map dull db) (dull t) = p_table_text db t.
Proof.
  intros db t. unfold p_table_text. assert (column_defs (dull t) = column_defs t) as ->.
  { unfold column_defs. cbn [dull pt_columns]. destruct (pt_columns t) as [|c l]; [reflexivity|]. cbn [map]. rewrite map_map. reflexivity. }
  assert (constraint_defs (map dull db) (dull t) = constraint_defs db t) as ->; [|reflexivity].
  unfold constraint_defs. cbn [dull pt_constraints]. rewrite filter_map, flat_map_map.
  replace (filter (fun x => asked_kind (pk_kind (dull_constraint x)) && has_columns (dull_constraint x)) (pt_constraints t)) with (filter (fun c => asked_kind (pk_kind c) && has_columns c) (pt_constraints t)).
  - rewrite (flat_map_ext _ _ (dull_rows db)). reflexivity.
  - apply filter_ext. intro c. cbn [dull_constraint pk_kind]. unfold has_columns. cbn [pk_columns]. destruct (pk_kind c); reflexivity.
Qed.
Lemma dull_schema : forall schema db, of_schema schema (map dull db) = map dull (of_schema schema db).
Proof. intros schema db. unfold of_schema. rewrite filter_map. reflexivity. Qed.
Lemma dull_show : forall schema db, show_postgres schema (map dull db) = show_postgres schema db.
Proof.
  intros schema db. unfold show_postgres. f_equal; f_equal.
  - f_equal. unfold table_statements. rewrite dull_schema, (order_map _ _ dull le_table le_table) by reflexivity. rewrite flat_map_map. apply flat_map_ext. intro t. rewrite dull_text. reflexivity.
  - f_equal. unfold index_statements, schema_constraint_names. rewrite dull_schema, !flat_map_map. f_equal.
    assert (flat_map (fun t => map pk_name (pt_constraints (dull t))) (of_schema schema db) = flat_map (fun t => map pk_name (pt_constraints t)) (of_schema schema db)) as ->.
    { apply flat_map_ext. intro t. cbn [dull pt_constraints]. rewrite map_map. reflexivity. }
    f_equal. apply flat_map_ext. intro t. unfold index_rows. cbn [dull pt_constraints pt_indexes pt_schema pt_name]. f_equal. rewrite flat_map_map. apply flat_map_ext. intro c.
    cbn [dull_constraint pk_kind pk_name pk_columns]. destruct (pk_kind c); reflexivity.
Qed.

(** Two databases that differ only there are shown by the same text. *)
Theorem C82_same_text : forall schema db db', alike db db' -> show_postgres schema db = show_postgres schema db'.
Proof. intros schema db db' H. rewrite <- (dull_show schema db), <- (dull_show schema db'), H. reflexivity. Qed.
Print Assumptions C82_same_text.

(** CHECK constraints do not show at all: without them the tables are shown by the same text, and
    so is the database unless an index is named like one of them. *)
Definition is_check (c : p_constraint) : bool := match pk_kind c with PCheck _ => true | _ => false end.
Definition unchecked (t : p_table) : p_table :=
  mkPTable (pt_schema t) (pt_name t) (pt_view t) (pt_columns t) (filter (fun c => negb (is_check c)) (pt_constraints t)) (pt_indexes t).
Lemma unchecked_referential : forall db, referential_rows (map unchecked db) = referential_rows db.
Proof.
  intro db. unfold referential_rows. rewrite flat_map_map. apply flat_map_ext. intro t. cbn [unchecked pt_constraints].
  induction (pt_constraints t) as [|c l IH]; [reflexivity|]. cbn [filter flat_map]. unfold is_check at 1. destruct (pk_kind c) eqn:K; cbn [negb flat_map]; rewrite ?K, IH; reflexivity.
Qed.
Lemma unchecked_text : forall db t, p_table_text (map unchecked db) (unchecked t) = p_table_text db t.
Proof.
  intros db t. unfold p_table_text. change (column_defs (unchecked t)) with (column_defs t).
  assert (constraint_defs (map unchecked db) (unchecked t) = constraint_defs db t) as ->; [|reflexivity].
  unfold constraint_defs. cbn [unchecked pt_constraints].
  assert (R : forall c, constraint_rows (map unchecked db) c = constraint_rows db c) by (intro c; unfold constraint_rows; rewrite unchecked_referential; reflexivity).
  rewrite (flat_map_ext _ _ R).
  replace (filter (fun c => asked_kind (pk_kind c) && has_columns c) (filter (fun c => negb (is_check c)) (pt_constraints t))) with (filter (fun c => asked_kind (pk_kind c) && has_columns c) (pt_constraints t)); [reflexivity|].
  induction (pt_constraints t) as [|c l IH]; [reflexivity|]. cbn [filter]. unfold is_check at 1. destruct (pk_kind c) eqn:K; cbn [negb filter]; rewrite ?K; cbn [asked_kind andb]; rewrite <- IH; reflexivity.
Qed.
Lemma unchecked_schema : forall schema db, of_schema schema (map unchecked db) = map unchecked (of_schema schema db).
Proof. intros schema db. unfold of_schema. rewrite filter_map. reflexivity. Qed.
Theorem C82_checks_do_not_show : forall schema db, table_statements schema (map unchecked db) = table_statements schema db.
Proof.
  intros schema db. unfold table_statements. rewrite unchecked_schema, (order_map _ _ unchecked le_table le_table) by reflexivity. rewrite flat_map_map. apply flat_map_ext. intro t. rewrite unchecked_text. reflexivity.
Qed.
Print Assumptions C82_checks_do_not_show.
Theorem C82_checks_count_by_name : forall schema db,
  (forall t t' c i, In t db -> In t' db -> In c (pt_constraints t) -> is_check c = true -> In i (index_rows t') -> pi_name i <> pk_name c) ->
  show_postgres schema (map unchecked db) = show_postgres schema db.
Proof.
  intros schema db H. unfold show_postgres. rewrite C82_checks_do_not_show. f_equal. f_equal. f_equal. unfold index_statements. rewrite unchecked_schema. f_equal.
  assert (I : flat_map index_rows (map unchecked (of_schema schema db)) = flat_map index_rows (of_schema schema db)).
  { rewrite flat_map_map. apply flat_map_ext. intro t. unfold index_rows. cbn [unchecked pt_constraints pt_indexes pt_schema pt_name]. f_equal.
    induction (pt_constraints t) as [|c l IH]; [reflexivity|]. cbn [filter flat_map]. unfold is_check at 1. destruct (pk_kind c) eqn:K; cbn [negb flat_map]; rewrite ?K, IH; reflexivity. }
  rewrite I. apply filter_ext_in. intros i Ii. f_equal. apply in_flat_map in Ii. destruct Ii as [t' [It' Ii]]. unfold of_schema in It'. apply filter_In in It'. destruct It' as [It' _].
  unfold schema_constraint_names. rewrite unchecked_schema. rewrite flat_map_map. cbn [unchecked pt_constraints].
  assert (J : forall t, In t (of_schema schema db) -> In t db) by (intros t G; unfold of_schema in G; apply filter_In in G; tauto).
  revert J. generalize (of_schema schema db). induction l as [|t l IH]; intro J; [reflexivity|]. cbn [flat_map]. rewrite !existsb_app, IH by (intros x G; apply J; right; exact G). f_equal.
  assert (C : forall c, In c (pt_constraints t) -> is_check c = true -> String.eqb (pi_name i) (pk_name c) = false).
  { intros c Ic Kc. apply String.eqb_neq. exact (H t t' c i (J t (or_introl eq_refl)) It' Ic Kc Ii). }
  revert C. induction (pt_constraints t) as [|c r IHr]; intro C; [reflexivity|]. cbn [filter map existsb]. destruct (is_check c) eqn:K.
  - cbn [negb]. rewrite (C c (or_introl eq_refl) K). cbn [orb]. apply IHr. intros x Ix. apply C. right. exact Ix.
  - cbn [negb map existsb]. f_equal. apply IHr. intros x Ix. apply C. right. exact Ix.
Qed.
Print Assumptions C82_checks_count_by_name.
Example C82_check_example :
  let t k := mkPTable "public" "t" false [mkPColumn "a" "integer" None "" false None] k [mkPIndex "i" "CREATE INDEX i ON public.t USING btree (a)"] in
  show_postgres "public" [t [mkPConstraint "c" (PCheck "(a > 0)") ["a"]]] = show_postgres "public" [t []]
  /\ show_postgres "public" [t [mkPConstraint "i" (PCheck "(a > 0)") []]] <> show_postgres "public" [t []].
Proof. split; [reflexivity|]. vm_compute. discriminate. Qed.

(** A Spanner database without what its information schema is not asked for, or what is asked
    for and not written: descending columns of keys and indexes, parent tables, foreign keys
    and CHECK constraints. *)
Definition dull_part (p : s_part) : s_part := mkPart (pt_column p) false.
Definition dull_index (i : s_index) : s_index := mkSIndex (si_name i) (si_unique i) (map dull_part (si_columns i)) (si_stored i).
Definition dull_spanner (t : s_table) : s_table :=
  mkSTable (st_name t) (st_columns t) (st_options t) (map dull_part (st_key t)) (st_policy t) (map dull_index (st_indexes t)) None [].
Definition spanner_alike (db db' : list s_table) : Prop := map dull_spanner db = map dull_spanner db'.

Definition dull_row (r : index_columns_row) : index_columns_row := mkICR (icr_name r) (icr_type r) (icr_column r) false (icr_position r).
Lemma dull_column_rows : forall name type key stored, column_rows name type (map dull_part key) stored = map dull_row (column_rows name type key stored).
Proof.
  intros name type key stored. unfold column_rows. rewrite map_app, !map_map, map_length. f_equal.
  generalize 1. induction key as [|p key IH]; intro n; [reflexivity|]. cbn [map List.length seq combine fst snd]. rewrite IH. reflexivity.
Qed.
Lemma dull_index_columns : forall t, index_columns_rows (dull_spanner t) = map dull_row (index_columns_rows t).
Proof.
  intro t. unfold index_columns_rows. cbn [dull_spanner st_key st_indexes]. rewrite map_app, dull_column_rows. f_equal.
  induction (st_indexes t) as [|i l IH]; [reflexivity|]. cbn [map flat_map dull_index si_name si_columns si_stored]. rewrite map_app, IH, dull_column_rows. reflexivity.
Qed.
Lemma dull_indexes : forall t, indexes_rows (dull_spanner t) = indexes_rows t.
Proof. intro t. unfold indexes_rows. cbn [dull_spanner st_key st_indexes]. rewrite map_map. destruct (st_key t); reflexivity. Qed.
Lemma join_map : forall i ic, join_rows i (map dull_row ic) = map dull_row (join_rows i ic).
Proof. intros i ic. unfold join_rows. induction i as [|x i IH]; [reflexivity|]. cbn [flat_map]. rewrite map_app, IH. reflexivity. Qed.
Lemma dull_primary : forall t, query_primary_key (dull_spanner t) = map dull_row (query_primary_key t).
Proof.
  intro t. unfold query_primary_key. rewrite dull_indexes, dull_index_columns, filter_map. cbn [dull_row icr_type]. rewrite join_map. apply order_map. reflexivity.
Qed.
Lemma dull_query_columns : forall t, query_index_columns (dull_spanner t) = map dull_row (query_index_columns t).
Proof.
  intro t. unfold query_index_columns. rewrite dull_indexes, dull_index_columns, filter_map. cbn [dull_row icr_name]. rewrite join_map. apply order_map. reflexivity.
Qed.
Lemma dull_table_text : forall t, table_text (dull_spanner t) = table_text t.
Proof.
  intro t. unfold table_text. rewrite dull_primary. cbn [dull_spanner st_name st_columns st_policy].
  assert (forall l, columns_text (dull_spanner t) l = columns_text t l) as ->. { intro l. induction l as [|c l IH]; [reflexivity|]. cbn [columns_text]. rewrite IH. reflexivity. }
  destruct (query_primary_key t) as [|x l]; [reflexivity|]. cbn [map]. rewrite map_map. reflexivity.
Qed.
Lemma dull_index_texts : forall t, index_texts (dull_spanner t) = index_texts t.
Proof.
  intro t. unfold index_texts, query_indexes. rewrite dull_indexes. apply map_ext. intro r. unfold index_text. rewrite dull_query_columns, map_map. reflexivity.
Qed.
Theorem C82_same_text_spanner : forall db db', spanner_alike db db' -> show_spanner db = show_spanner db'.
Proof.
  intros db db' H. assert (forall l, show_spanner (map dull_spanner l) = show_spanner l) as E; [|rewrite <- E, <- (E db'), H; reflexivity].
  intro l. induction l as [|t l IH]; [reflexivity|]. cbn [map show_spanner]. rewrite IH, dull_table_text, dull_index_texts. destruct l; reflexivity.
Qed.
Print Assumptions C82_same_text_spanner.

(** Servers that differ only there, and the same process with other servers. *)
Definition servers_alike (a b : server) : Prop :=
  match a, b with PostgresServer db, PostgresServer db' => alike db db' | SpannerServer db, SpannerServer db' => spanner_alike db db' | _, _ => a = b end.
Definition with_servers (x : outside) (servers : string -> server) : outside :=
  mkOutside (x_gop x) (x_look x) (x_short x) (x_gsrt x) servers (x_place x) (x_opens x) (x_out x) (x_stdin x) (x_open x) (x_conn x) (x_exec x) (x_again x)
    (x_srt x) (x_sdiff x) (x_usage x) (x_version x).
Lemma alike_shown : forall dialect a b, servers_alike a b -> show dialect a = show dialect b.
Proof. intros dialect a b H. destruct a, b; cbn [servers_alike] in H; try discriminate H; try (injection H as ->; reflexivity); try reflexivity. 
  all: cbn [show]; first [rewrite (C82_same_text _ _ _ H)|rewrite (C82_same_text_spanner _ _ H)]; reflexivity. Qed.

(** The part of apply that executes does not ask for sources. *)
Definition with_resolve (w : world) (r : string -> option string) : world :=
  mkWorld (w_load w) (w_auto w) (w_dialect w) r (w_out w) (w_stdin w) (w_open w) (w_conn w) (w_exec w) (w_again w) (w_srt w) (w_sdiff w).
Lemma resolve_attempt : forall w r ign qs past, attempt (with_resolve w r) ign qs past = attempt w ign qs past.
Proof. intros w r ign qs. induction qs as [|q qs IH]; intro past; [reflexivity|]. cbn [attempt]. rewrite !IH. reflexivity. Qed.
Lemma resolve_retry : forall w r ign qs n past, retry_do (with_resolve w r) ign qs n past = retry_do w ign qs n past.
Proof.
  intros w r ign qs n. induction n as [|n IH]; intro past; cbn [retry_do]; rewrite resolve_attempt; [reflexivity|]. destruct (attempt w ign qs past) as [evs e]. rewrite IH. reflexivity.
Qed.
Lemma resolve_send : forall w r qs past, send_all (with_resolve w r) qs past = send_all w qs past.
Proof. intros w r qs. induction qs as [|q qs IH]; intro past; [reflexivity|]. cbn [send_all]. rewrite !IH. reflexivity. Qed.
Lemma resolve_apply : forall w r dsn t past, apply (with_resolve w r) dsn t past = apply w dsn t past.
Proof.
  intros w r dsn t past. unfold apply, split_exec, batch_exec. rewrite !resolve_retry.
  change (w_exec (with_resolve w r)) with (w_exec w). change (w_conn (with_resolve w r)) with (w_conn w). change (w_open (with_resolve w r)) with (w_open w).
  change (w_dialect (with_resolve w r)) with (w_dialect w). destruct (w_exec w (past ++ [EOpen dsn]) start_batch); [reflexivity|]. rewrite resolve_send. reflexivity.
Qed.
Lemma resolve_diff : forall w r a b, (forall s, r s = w_resolve w s) -> diff_text (with_resolve w r) a b = diff_text w a b.
Proof. intros w r a b H. unfold diff_text. cbn [with_resolve w_resolve w_dialect w_srt w_sdiff]. rewrite !H. reflexivity. Qed.
Lemma resolve_diff_command : forall w r args, (forall s, r s = w_resolve w s) -> diff_command (with_resolve w r) args = diff_command w args.
Proof. intros w r args H. unfold diff_command. destruct args as [|a [|b [|? ?]]]; try reflexivity. rewrite (resolve_diff w r a b H). reflexivity. Qed.
Lemma resolve_apply_command : forall w r args, (forall s, r s = w_resolve w s) -> apply_command (with_resolve w r) args = apply_command w args.
Proof.
  intros w r args H. unfold apply_command. destruct args as [|a [|b [|? ?]]]; try reflexivity. rewrite (resolve_diff w r a b H).
  destruct (diff_text w a b); try reflexivity. rewrite resolve_apply. reflexivity.
Qed.

(** So no command can tell the two apart: the same messages, the same statements executed,
    the same end.  What a wanted schema says about these things is compared with nothing. *)
Theorem C82_same_runs : forall x servers k a, (forall dsn, servers_alike (x_server x dsn) (servers dsn)) -> ddlctl (with_servers x servers) k a = ddlctl x k a.
Proof.
  intros x servers k a H.
  assert (forall dsn dialect, show dialect (servers dsn) = show dialect (x_server x dsn)) as E by (intros dsn dialect; symmetry; apply alike_shown, H).
  set (r := w_resolve (world_of (with_servers x servers) k (config_of a))).
  assert (forall s, r s = w_resolve (world_of x k (config_of a)) s) as R.
  { intro s. unfold r. cbn [world_of w_resolve with_servers x_gop x_server x_look x_short x_gsrt]. unfold resolve. cbn [y_entry y_server]. destruct (entry_of _ _ _); [reflexivity|reflexivity|apply E]. }
  unfold ddlctl. destruct (a_command a); try reflexivity.
  - unfold show_command. destruct (a_args a) as [|dsn l]; [reflexivity|]. cbn [with_servers x_server x_out]. rewrite E. reflexivity.
  - change (world_of (with_servers x servers) k (config_of a)) with (with_resolve (world_of x k (config_of a)) r). rewrite (resolve_diff_command _ _ _ R). reflexivity.
  - change (world_of (with_servers x servers) k (config_of a)) with (with_resolve (world_of x k (config_of a)) r). rewrite (resolve_apply_command _ _ _ R). reflexivity.
Qed.
Print Assumptions C82_same_runs.

(** Two databases with another table referred to, another condition, another precision, and
    a view in place of a table; and the text both are shown by. *)
Definition blind_one : list p_table :=
  [mkPTable "public" "t" false [mkPColumn "a" "integer" None "" true None; mkPColumn "n" "numeric" None "(10,2)" true None]
     [mkPConstraint "f" (PForeign "u" ["b"] "NO ACTION" "CASCADE") ["a"]; mkPConstraint "c" (PCheck "(a > 0)") []] [];
   mkPTable "public" "v" false [mkPColumn "a" "integer" None "" true None] [] []].
Definition blind_two : list p_table :=
  [mkPTable "public" "t" false [mkPColumn "a" "integer" None "" true None; mkPColumn "n" "numeric" None "(3,1)" true None]
     [mkPConstraint "f" (PForeign "w" ["z"] "NO ACTION" "CASCADE") ["a"]; mkPConstraint "c" (PCheck "(a < 0)") []] [];
   mkPTable "public" "v" true [mkPColumn "a" "integer" None "" true None] [] []].
Example C82_example : alike blind_one blind_two /\ blind_one <> blind_two
  /\ show_postgres "public" blind_one = ("CREATE TABLE public.t (" ++ nl ++ "  a integer," ++ nl ++ "  n numeric," ++ nl
       ++ "  CONSTRAINT f FOREIGN KEY (a) ON UPDATE NO ACTION ON DELETE CASCADE" ++ nl ++ ");" ++ nl ++ "CREATE TABLE public.v (" ++ nl ++ "  a integer" ++ nl ++ ");" ++ nl)%string
  /\ show_postgres "public" blind_two = show_postgres "public" blind_one.
Proof. split; [reflexivity|]. split; [discriminate|]. split; vm_compute; reflexivity. Qed.
(** Two Spanner databases: another direction of the key, another parent and another condition. *)
Example C82_spanner_example :
  let one := [mkSTable "T" [mkSColumn "A" None false "INT64"] [] [mkPart "A" true] "" [mkSIndex "I" true [mkPart "A" true] []] (Some "P") ["CONSTRAINT c CHECK (A > 0)"]] in
  let two := [mkSTable "T" [mkSColumn "A" None false "INT64"] [] [mkPart "A" false] "" [mkSIndex "I" true [mkPart "A" false] []] None ["CONSTRAINT c CHECK (A < 0)"]] in
  spanner_alike one two /\ one <> two
  /\ show_spanner one = ("CREATE TABLE T (" ++ nl ++ "    A INT64 NOT NULL" ++ nl ++ ") PRIMARY KEY (A);" ++ nl ++ "CREATE UNIQUE INDEX I ON T (A);" ++ nl)%string
  /\ show_spanner two = show_spanner one.
Proof. split; [reflexivity|]. split; [discriminate|]. split; vm_compute; reflexivity. Qed.
(** The rules of a foreign key are told. *)
Example C82_rules_are_told : exists db db', map pt_name db = map pt_name db' /\ ~ alike db db' /\ show_postgres "public" db <> show_postgres "public" db'.
Proof.
  exists [mkPTable "public" "t" false [mkPColumn "a" "integer" None "" true None] [mkPConstraint "f" (PForeign "u" ["b"] "NO ACTION" "CASCADE") ["a"]] []].
  exists [mkPTable "public" "t" false [mkPColumn "a" "integer" None "" true None] [mkPConstraint "f" (PForeign "u" ["b"] "NO ACTION" "RESTRICT") ["a"]] []].
  split; [reflexivity|]. split; [vm_compute; discriminate|]. vm_compute. discriminate.
Qed.
