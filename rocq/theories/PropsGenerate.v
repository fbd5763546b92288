(** C30 - C34, C39, C45, C46: generating DDL from Go sources, the configuration,
    showing the indexes of a Spanner database, trimming helpers. *)
From Coq Require Import Permutation Sorted Lia.
From Verif Require Import GoStr Token Lexer Ast Parser Lines Tidy IndexText LinesFacts.
From Verif Require Import Generate GenSpec GenFacts GenOrder GenText GenSafe Config Show ShowFacts.

(** * C30: generation is deterministic *)

(** If no two statements of a file come from the same line, the text generated does
    not depend on the order in which the comment maps are met, nor on how the sort
    treats statements that compare equal. *)
Theorem C30_deterministic_partial : forall cfg look short srt srt' dialect language i i',
  sorts srt -> sorts srt' -> reordered i i' ->
  (forall file nodes l, In (file, nodes) (files_of i) -> parse_file cfg look short srt file nodes = Ok (Some l) -> NoDup (map stmt_line l)) ->
  generate cfg look short srt dialect language i = generate cfg look short srt' dialect language i'.
Proof.
  intros cfg look short srt srt' dialect language i i' S S' R D. unfold generate. destruct (String.eqb language "go"); [|reflexivity].
  rewrite (parse_input_same cfg look short srt srt' i i' R); [reflexivity|].
  intros file a b I E. destruct E as [_ E]. cbn [snd] in E. destruct a as [nodes|], b as [nodes'|]; try contradiction; [|reflexivity].
  apply parse_file_any_sort; try assumption. intros l. apply D. exact I.
Qed.
Print Assumptions C30_deterministic_partial.

(** A table and an index of the same comment group may share a line; as long as
    comment groups do not share lines, and a file has at most twelve statements (so
    that Go's sort is an insertion sort), the text is still determined. *)
Theorem C30_small_files_partial : forall cfg look short srt dialect language i i',
  sorts_like_go srt -> reordered i i' ->
  (forall file nodes, In (file, Some nodes) (files_of i) -> groups_apart nodes) ->
  (forall file nodes l, In (file, nodes) (files_of i) -> parse_file cfg look short srt file nodes = Ok (Some l) -> List.length l <= 12) ->
  generate cfg look short srt dialect language i = generate cfg look short srt dialect language i'.
Proof.
  intros cfg look short srt dialect language i i' S R A D. unfold generate. destruct (String.eqb language "go"); [|reflexivity].
  rewrite (parse_input_same cfg look short srt srt i i' R); [reflexivity|].
  intros file a b I E. destruct E as [_ E]. cbn [snd] in E. destruct a as [nodes|], b as [nodes'|]; try contradiction; [|reflexivity].
  apply parse_file_small; try assumption; [eapply A; exact I|]. intros l. apply D. exact I.
Qed.
Print Assumptions C30_small_files_partial.

Definition demo : settings := mkSettings "db" "pgddl" "pk".
Definition demo_node (name : string) (lines : list (string * N)) : cnode :=
  mkNode [mkType name (Some [mkField ["ID"] (Some "`db:""id"" pgddl:""TEXT""`") ""])] [map (fun x => mkLine (fst x) (snd x)) lines].
Definition demo_file (a b : cnode) : input := OneFile "a.go" (Some [a; b]).
Definition node_a : cnode := demo_node "A" [("// pgddl: index: i ON a (id)", 3%N); ("// pgddl: table: a", 4%N)].
Definition node_b : cnode := demo_node "B" [("// pgddl: table: b", 9%N)].

Lemma small_is_go : sorts_like_go sort_small.
Proof. split; [exact sort_small_sorts|reflexivity]. Qed.

(** Both orders, by the theorem: the index of [a] and the table [a] share line 3. *)
Example C30_deterministic_example :
  generate demo look_simple (fun s => s) sort_small "postgres" "go" (demo_file node_a node_b)
  = generate demo look_simple (fun s => s) sort_small "postgres" "go" (demo_file node_b node_a)
  /\ exists text, generate demo look_simple (fun s => s) sort_small "postgres" "go" (demo_file node_a node_b) = Ok text /\ text <> "".
Proof.
  split.
  - apply C30_small_files_partial; [exact small_is_go|split; [reflexivity|apply perm_swap]| |].
    + intros file nodes [H|[]]. injection H as <- <-. constructor; [|repeat constructor]. constructor; [|constructor].
      intros l l' [<-|[<-|[]]] [<-|[]]; discriminate.
    + intros file nodes l [H|[]]. injection H as <- <-. vm_compute. intro H. injection H as <-. cbn. lia.
  - vm_compute. eexists. split; [reflexivity|discriminate].
Qed.

(** Two annotated structs on one line: the order of the statements follows the
    order of the map. *)
Definition same_line (name : string) : cnode := demo_node name [(("/* pgddl: table: " ++ name ++ " */")%string, 3%N)].
Theorem C30_same_line_refuted :
  exists i i', reordered i i' /\ sorts_like_go sort_small
    /\ generate demo look_simple (fun s => s) sort_small "postgres" "go" i <> generate demo look_simple (fun s => s) sort_small "postgres" "go" i'.
Proof.
  exists (demo_file (same_line "a") (same_line "b")), (demo_file (same_line "b") (same_line "a")).
  split; [split; [reflexivity|apply perm_swap]|]. split; [exact small_is_go|]. vm_compute. discriminate.
Qed.
Print Assumptions C30_same_line_refuted.

(** * C31: commas of generated tables *)

(** What stands in the parentheses: columns, primary key (not for Spanner) and
    constraints. *)
Definition items (d : printer) (t : gtable) : list (list string * string) :=
  let q := match d with PgPrinter => dquote | _ => bquote end in
  (map (column_item q (name_width (g_columns t))) (g_columns t)
   ++ (match d with SpPrinter => [] | _ => key_items q (g_pk t) end)
   ++ map text_item (g_constraints t))%list.

Theorem C31_commas : forall d short indent t, g_create t <> "" ->
  exists comments tail,
    print_table d short indent t = (comments ++ g_create t ++ " (" ++ nl ++ comma_lines indent (items d t) ++ ")" ++ tail ++ ";" ++ nl)%string
    /\ tail = ((match d with SpPrinter => sp_key (g_pk t) (g_options t) | _ => "" end) ++ option_lines (g_options t))%string
    /\ comments = (print_source short (g_file t) (g_line t) ++ print_comments "" (g_comments t))%string.
Proof.
  intros d short indent t H. eexists _, _. split; [|split; reflexivity]. rewrite print_table_items by exact H.
  unfold table_tail. rewrite !append_assoc. destruct d; reflexivity.
Qed.
Print Assumptions C31_commas.

(** Every table that is generated has a name, hence ends with [;], and columns. *)
Theorem C31_tables_are_complete : forall cfg look short srt file nodes l, sorts srt ->
  parse_file cfg look short srt file nodes = Ok (Some l) ->
  forall t, In (GTable t) l -> g_create t <> "" /\ g_columns t <> [].
Proof.
  intros cfg look short srt file [nodes|] l S H t I; [|discriminate]. cbn [parse_file] in H.
  pose proof (all_good (ddl_tag cfg) nodes) as G. destruct (extract_sources (ddl_tag cfg) nodes); [discriminate|].
  apply bind_Ok in H. destruct H as (out & H1 & H2). injection H2 as <-. apply read_sources_proper in H1; [|exact G].
  rewrite Forall_forall in H1. apply (H1 (GTable t)). eapply Permutation_in; [apply S|exact I].
Qed.
Print Assumptions C31_tables_are_complete.

Example C31_commas_example :
  print_table PgPrinter (fun s => s) "  " (mkGTable "" 0 ["c"] "CREATE TABLE t" [mkGColumn ["x"] "a" "TEXT"; mkGColumn [] "bc" "TEXT"] [mkGText [] "UNIQUE (a)"] [] ["a"; "bc"])
  = unlines ["-- c"; "CREATE TABLE t ("; "  -- x"; "  ""a""  TEXT,"; "  ""bc"" TEXT,"; "  PRIMARY KEY (""a"", ""bc""),"; "  UNIQUE (a)"; ");"]
  /\ print_table SpPrinter (fun s => s) "  " (mkGTable "" 0 [] "CREATE TABLE t" [mkGColumn [] "a" "INT64"] [] [mkGText [] "INTERLEAVE IN PARENT p"; mkGText [] "o"] ["a"])
  = unlines ["CREATE TABLE t ("; "  `a` INT64"; ") PRIMARY KEY (`a`),"; "INTERLEAVE IN PARENT p,"; "o;"].
Proof. split; reflexivity. Qed.

(** * C32: comments stay comments *)

(** If every comment is a single line, the lines that are not comments are those of
    the same statements without comments and source positions. *)
Theorem C32_comments_partial : forall d short l,
  (forall s, In s l -> one_line (short (stmt_file s)) = true /\ forallb one_line (all_comments s) = true) ->
  code_lines (print_ddl d short l) = code_lines (print_ddl d short (map bare l)).
Proof. exact ddl_code. Qed.
Print Assumptions C32_comments_partial.

(** That is the case when the annotations are [//] comments, whatever the doc
    comments of the fields are. *)
Theorem C32_line_comments_partial : forall cfg look short file nodes out,
  one_line (column_tag cfg) = true -> one_line (ddl_tag cfg) = true -> one_line (pk_tag cfg) = true -> one_line (short file) = true ->
  (forall n, In n nodes ->
     (forall t, In t (n_types n) -> one_line (ts_name t) = true /\ forall fs f x, ts_fields t = Some fs -> In f fs -> In x (f_names f) -> one_line x = true)
     /\ forall g l, In g (n_groups n) -> In l g -> one_line (cl_text l) = true) ->
  read_sources cfg look short file (extract_sources (ddl_tag cfg) nodes) = Ok out ->
  forall d s, In s out -> code_lines (print_ddl d short [s]) = code_lines (print_ddl d short [bare s]).
Proof.
  intros cfg look short file nodes out C1 C2 C3 F N H d s I. apply (ddl_code d short [s]). intros s' [<-|[]].
  rewrite one_line_no_nl in C1, C2, C3.
  pose proof H as H0. apply read_sources_Forall2 in H. destruct H as (outs & H & ->).
  assert (Forall2 (fun r o => forall s, In s o -> stmt_file s = file /\ stmt_one s) (extract_sources (ddl_tag cfg) nodes) outs) as K.
  { assert (forall r, In r (extract_sources (ddl_tag cfg) nodes) -> good_source r /\ plain_names cfg short file r) as P.
    { intros r Ir. destruct (extract_good _ _ _ Ir) as (G & n & In1 & Ig & Es). split; [exact G|]. destruct (N n In1) as [NT NG].
      constructor.
      - repeat split; assumption.
      - rewrite <- one_line_no_nl. exact F.
      - destruct (s_type r) as [ty|] eqn:Et; [|exact Logic.I]. unfold extract_sources in Ir. apply in_flat_map in Ir. destruct Ir as (n' & In2 & Ir).
        unfold sources_of_node in Ir. apply in_flat_map in Ir. destruct Ir as (g & Ig' & Ir). unfold sources_of_group in Ir. destruct (find _ g); [|contradiction].
        destruct Ir as [<-|[]]. cbn [s_type] in Et. destruct (N n' In2) as [NT' _].
        assert (forall l acc, fold_left (fun (_ : option string) t => Some (ts_name t)) l acc = Some ty -> acc = Some ty \/ exists t, In t l /\ ts_name t = ty) as L.
        { induction l as [|x l IH]; intros acc E; [left; exact E|]. cbn [fold_left] in E. apply IH in E. destruct E as [E|(t & It & E)].
          - right. exists x. split; [left; reflexivity|congruence].
          - right. exists t. split; [right; exact It|exact E]. }
        apply L in Et. destruct Et as [Et|(t & It & <-)]; [discriminate|]. rewrite <- one_line_no_nl. apply NT'. exact It.
      - destruct (s_struct r) as [fs|] eqn:Ef; [|exact Logic.I]. symmetry in Es. apply last_struct_in in Es. destruct Es as (t & It & Et). intros f x If Ix.
        rewrite <- one_line_no_nl. eapply NT; eassumption.
      - intros l Il. eapply NG; eassumption. }
    clear H0 I. induction H as [|r o rs outs E H IH]; [constructor|]. constructor; [|apply IH; intros r' I'; apply P; right; exact I'].
    destruct (P r (or_introl eq_refl)) as [G Q]. pose proof (read_source_from _ _ _ _ _ _ G E) as K1. pose proof (read_source_one _ _ _ _ _ _ Q G E) as K2.
    rewrite Forall_forall in K1, K2. intros x Ix. split; [apply (K1 x Ix)|apply (K2 x Ix)]. }
  assert (stmt_file s = file /\ stmt_one s) as [E1 E2].
  { clear H H0. induction K as [|r o rs outs E H IH]; [contradiction|]. cbn [List.concat] in I. apply in_app_or in I. destruct I as [I|I]; [apply E; exact I|apply IH; exact I]. }
  rewrite E1. split; [exact F|exact E2].
Qed.
Print Assumptions C32_line_comments_partial.

Example C32_comments_example :
  code_lines (print_ddl PgPrinter (fun s => s)
    [GTable (mkGTable "a.go" 3 ["users"; "DROP TABLE x;"] "CREATE TABLE t" [mkGColumn ["the id"] "id" "TEXT"] [] [] []); GIndex (mkGIndex "a.go" 4 ["i"] "CREATE INDEX i ON t (id)")])
  = [""; "CREATE TABLE t ("; "    ""id"" TEXT"; ");"; ""; "CREATE INDEX i ON t (id);"; ""].
Proof. reflexivity. Qed.

(** A block comment of several lines: the lines after the first are not marked, here
    a statement of its own. *)
Theorem C32_block_comment_refuted :
  exists nodes text, generate demo look_simple (fun s => s) sort_small "postgres" "go" (OneFile "a.go" (Some nodes)) = Ok text
    /\ In "DROP TABLE x;" (code_lines text).
Proof.
  exists [demo_node "A" [(("/*" ++ nl ++ "pgddl: table: a" ++ nl ++ "DROP TABLE x;" ++ nl ++ "*/")%string, 3%N)]].
  eexists. split; [vm_compute; reflexivity|]. vm_compute. tauto.
Qed.
Print Assumptions C32_block_comment_refuted.

(** * C33: rolling back the configuration *)

(** Whatever happens in between, the rollback function a load returned puts back
    the configuration that was in effect before that load. *)
Lemma undos_grow : forall l s, exists more, undos (run l s) = (undos s ++ more)%list.
Proof.
  induction l as [|a l IH]; intro s; [exists []; symmetry; apply app_nil_r|]. cbn [run fold_left]. destruct (IH (act a s)) as (more & E). unfold run in E. rewrite E.
  destruct a as [[c|]|k]; cbn [act load load_config snd fst].
  - unfold load, load_config. destruct (cfg_trace c); [|destruct (cfg_debug c)]; cbn; rewrite <- app_assoc; eexists; reflexivity.
  - exists more. reflexivity.
  - exists more. unfold rollback. destruct (nth_error (undos s) k); reflexivity.
Qed.
Theorem C33_rollback_restores : forall s flags k s1 history,
  load flags s = (Some k, s1) -> current (rollback k (run history s1)) = current s.
Proof.
  intros s flags k s1 history H. assert (nth_error (undos s1) k = Some (current s)) as E.
  { unfold load in H. destruct (load_config flags s) as [[c|] s0] eqn:L; [|discriminate]. injection H as <- <-. cbn [undos].
    assert (undos s0 = undos s) as ->. { unfold load_config in L. destruct flags as [f|]; [|discriminate]. destruct (cfg_trace f); [|destruct (cfg_debug f)]; injection L as <- <-; reflexivity. }
    rewrite nth_error_app2 by lia. rewrite Nat.sub_diag. reflexivity. }
  destruct (undos_grow history s1) as (more & G). unfold rollback. rewrite G, nth_error_app1, E; [reflexivity|].
  apply nth_error_Some. rewrite E. discriminate.
Qed.
Print Assumptions C33_rollback_restores.

(** So nested use leaves the configuration as it was; a load that fails changes
    nothing. *)
Theorem C33_nested : forall n s, current (play n s) = current s.
Proof.
  assert (forall n s, (exists more, undos (play n s) = (undos s ++ more)%list) /\ current (play n s) = current s) as K; [|intros n s; apply K].
  induction n as [|f inside IH1 after IH2]; intro s; [split; [exists []; symmetry; apply app_nil_r|reflexivity]|].
  cbn [play]. destruct (load f s) as [[k|] s1] eqn:L.
  - assert (nth_error (undos s1) k = Some (current s) /\ exists x, undos s1 = (undos s ++ x)%list) as [E [x X]].
    { unfold load in L. destruct (load_config f s) as [[c|] s0] eqn:L'; [|discriminate]. injection L as <- <-. cbn [undos].
      assert (undos s0 = undos s) as ->. { unfold load_config in L'. destruct f as [f|]; [|discriminate]. destruct (cfg_trace f); [|destruct (cfg_debug f)]; injection L' as <- <-; reflexivity. }
      rewrite nth_error_app2 by lia. rewrite Nat.sub_diag. split; [reflexivity|]. eexists. reflexivity. }
    destruct (IH1 s1) as [[m G] C1]. destruct (IH2 (rollback k (play inside s1))) as [[m' G'] C2].
    assert (current (rollback k (play inside s1)) = current s /\ undos (rollback k (play inside s1)) = undos (play inside s1)) as [R1 R2].
    { unfold rollback. rewrite G, nth_error_app1, E; [split; reflexivity|]. apply nth_error_Some. rewrite E. discriminate. }
    split; [|congruence]. rewrite G', R2, G, X, <- !app_assoc. eexists. reflexivity.
  - assert (s1 = s) as ->. { unfold load in L. destruct (load_config f s) as [[c|] s0] eqn:L'; [discriminate|]. injection L as <-. destruct f; [discriminate|]. injection L' as <-. reflexivity. }
    apply IH2.
Qed.
Print Assumptions C33_nested.
Theorem C33_failed_load : forall s flags s1, load flags s = (None, s1) -> s1 = s.
Proof.
  intros s flags s1 L. unfold load in L. destruct (load_config flags s) as [[c|] s0] eqn:L'; [discriminate|]. injection L as <-. destruct flags; [discriminate|]. injection L' as <-. reflexivity.
Qed.
Print Assumptions C33_failed_load.

Definition start : state := mkState None false false false [].
Definition flags_of (dialect : string) (debug : bool) : option config := Some (mkConfig false debug "go" dialect false "db" "pgddl" "pk").
(** Two loads, rolled back in the wrong order: each puts back its own. *)
Example C33_rollback_example :
  let s2 := run [Load (flags_of "mysql" false); Load (flags_of "spanner" false)] start in
  option_map cfg_dialect (current s2) = Some "spanner"
  /\ option_map cfg_dialect (current (rollback 1 s2)) = Some "mysql"
  /\ current (rollback 0 s2) = None
  /\ current (play (Use (flags_of "mysql" true) (Use None Done (Use (flags_of "spanner" false) Done Done)) Done) start) = None.
Proof. repeat split; reflexivity. Qed.

(** What a load leaves behind: the configuration of the command line; the logs switched on
    that it asks for (trace asks for both), the others as they were; errors with frames from
    the first load that asks for a log. *)
Theorem C33_load_takes_effect : forall s c k s1, load (Some c) s = (Some k, s1) ->
  current s1 = Some c /\ logs_trace s1 = (logs_trace s || cfg_trace c)%bool /\ logs_debug s1 = (logs_debug s || cfg_trace c || cfg_debug c)%bool
  /\ errors_framed s1 = (errors_framed s || cfg_trace c || cfg_debug c)%bool.
Proof.
  intros s c k s1 L. unfold load, load_config in L. destruct s as [cu lt ld ef un].
  destruct (cfg_trace c); [|destruct (cfg_debug c)]; injection L as <- <-; cbn; rewrite ?orb_true_r, ?orb_false_r; repeat split; reflexivity.
Qed.
Print Assumptions C33_load_takes_effect.
Example C33_load_example : let s1 := snd (load (flags_of "mysql" true) start) in
  logs_debug s1 = true /\ logs_trace s1 = false /\ option_map cfg_dialect (current s1) = Some "mysql".
Proof. repeat split. Qed.

(** The debug log and the error function switched on by a load stay on. *)
Theorem C33_logging_refuted : exists s flags k s1, load flags s = (Some k, s1)
  /\ (logs_debug (rollback k s1) <> logs_debug s /\ errors_framed (rollback k s1) <> errors_framed s).
Proof. exists start, (flags_of "mysql" true). eexists _, _. split; [reflexivity|]. split; discriminate. Qed.
Print Assumptions C33_logging_refuted.

(** In fact no call of a rollback function touches the logs: after any sequence of loads and
    rollbacks, in whatever order, they are on exactly if they were before or some load asked
    for them. *)
Definition asks_for (want : config -> bool) (a : action) : bool := match a with Load (Some c) => want c | _ => false end.
Theorem C33_logging_history : forall h s,
  logs_trace (run h s) = (logs_trace s || existsb (asks_for cfg_trace) h)%bool
  /\ logs_debug (run h s) = (logs_debug s || existsb (asks_for (fun c => cfg_trace c || cfg_debug c)) h)%bool
  /\ errors_framed (run h s) = (errors_framed s || existsb (asks_for (fun c => cfg_trace c || cfg_debug c)) h)%bool.
Proof.
  induction h as [|a h IH]; intro s; [cbn; rewrite !orb_false_r; repeat split; reflexivity|].
  change (run (a :: h) s) with (run h (act a s)). destruct (IH (act a s)) as (H1 & H2 & H3). rewrite H1, H2, H3. clear. destruct a as [[c|]|k]; cbn [act existsb asks_for].
  - destruct (load (Some c) s) as [[k|] s1] eqn:L; [|discriminate]. destruct (C33_load_takes_effect _ _ _ _ L) as (_ & T & D & F). cbn [snd]. rewrite T, D, F, !orb_assoc. repeat split; reflexivity.
  - repeat split; reflexivity.
  - unfold rollback. destruct (nth_error (undos s) k); repeat split; reflexivity.
Qed.
Print Assumptions C33_logging_history.
Example C33_logging_history_example : let s := run [Load (flags_of "mysql" true); Rollback 0; Load (flags_of "mysql" false); Rollback 1] start in
  current s = None /\ logs_trace s = false /\ logs_debug s = true /\ errors_framed s = true.
Proof. repeat split. Qed.

(** * C34: shown Spanner indexes *)

(** What should be shown for an index. *)
Definition create_index_text (t : s_table) (i : s_index) : string :=
  "CREATE " ++ (if si_unique i then "UNIQUE " else "") ++ "INDEX " ++ si_name i ++ " ON " ++ st_name t ++ " (" ++ join ", " (map pt_column (si_columns i)) ++ ");" ++ nl.

(** True for a table with a single secondary index that stores no further columns. *)
Theorem C34_single_index_partial : forall t i, st_indexes t = [i] -> si_stored i = [] -> si_name i <> "PRIMARY_KEY" ->
  index_texts t = [create_index_text t i].
Proof.
  intros t i E S N. unfold index_texts. rewrite query_indexes_all, E. cbn [map]. unfold index_text. rewrite (one_index_columns t i E S N). reflexivity.
Qed.
Print Assumptions C34_single_index_partial.
(** In general every index of a table is shown with the columns of all its indexes,
    each as many times as there are indexes. *)
Theorem C34_columns_shown_partial : forall t, (forall i, In i (st_indexes t) -> si_name i <> "PRIMARY_KEY") ->
  exists columns,
    Permutation columns (List.concat (repeat (flat_map (fun i => map pt_column (si_columns i) ++ si_stored i)%list (st_indexes t)) (List.length (st_indexes t))))
    /\ index_texts t = map (fun i => create_index_text t (mkSIndex (si_name i) (si_unique i) (map (fun c => mkPart c false) columns) [])) (st_indexes t).
Proof.
  intros t H. exists (map icr_column (query_index_columns t)). split; [apply all_index_columns; exact H|].
  unfold index_texts. rewrite query_indexes_all, map_map. apply map_ext. intro i. unfold index_text, create_index_text.
  cbn [ir_unique ir_name si_name si_unique si_columns]. rewrite map_map, map_id. reflexivity.
Qed.
Print Assumptions C34_columns_shown_partial.
Local Notation asc n := (mkPart n false).
Example C34_single_index_example :
  index_texts (mkSTable "T" [] [] [asc "A"] "" [mkSIndex "I" false [asc "B"; asc "C"] []] None []) = [("CREATE INDEX I ON T (B, C);" ++ nl)%string].
Proof. reflexivity. Qed.
(** Two indexes: each is shown with the columns of both, twice. *)
Theorem C34_two_indexes_refuted : exists t i, In i (st_indexes t) /\ ~ In (create_index_text t i) (index_texts t)
  /\ In ("CREATE INDEX I ON T (B, B, C, C);" ++ nl)%string (index_texts t) /\ si_name i = "I" /\ si_columns i = [asc "B"].
Proof.
  exists (mkSTable "T" [] [] [asc "A"] "" [mkSIndex "I" false [asc "B"] []; mkSIndex "J" false [asc "C"] []] None []), (mkSIndex "I" false [asc "B"] []).
  split; [left; reflexivity|]. split; [intros [H|[H|[]]]; discriminate H|]. split; [left; reflexivity|split; reflexivity].
Qed.
Print Assumptions C34_two_indexes_refuted.
(** Stored columns are shown as key columns, in front of them. *)
Theorem C34_storing_refuted : exists t i, st_indexes t = [i] /\ si_columns i = [asc "B"] /\ index_texts t = [("CREATE INDEX I ON T (C, B);" ++ nl)%string].
Proof. exists (mkSTable "T" [] [] [asc "A"] "" [mkSIndex "I" false [asc "B"] ["C"]] None []), (mkSIndex "I" false [asc "B"] ["C"]). repeat split. Qed.
Print Assumptions C34_storing_refuted.

(** * C39: trimming helpers *)

(** [l] is [a] and [b] merged, the order of each kept. *)
Inductive merged {A : Type} : list A -> list A -> list A -> Prop :=
| merged_nil : merged [] [] []
| merged_left : forall x a b l, merged a b l -> merged (x :: a) b (x :: l)
| merged_right : forall x a b l, merged a b l -> merged a (x :: b) (x :: l).

(** Exactly the lines that start with the prefix are removed, wherever they are. *)
Theorem C39_prefix_lines : forall l p, exists removed,
  merged (trim_has_prefix l p) removed l
  /\ (forall x, In x removed -> exists r, x = (p ++ r)%string)
  /\ (forall x, In x (trim_has_prefix l p) -> ~ exists r, x = (p ++ r)%string).
Proof.
  intros l p. exists (filter (has_prefix p) l). split; [|split].
  - unfold trim_has_prefix. induction l as [|x l IH]; [constructor|]. cbn [filter]. destruct (has_prefix p x); cbn [negb]; constructor; exact IH.
  - intros x I. apply filter_In in I. destruct I as [_ H]. apply prefix_split. exact H.
  - intros x I (r & ->). unfold trim_has_prefix in I. apply filter_In in I. destruct I as [_ H]. unfold has_prefix in H. rewrite prefix_app in H. discriminate.
Qed.
Print Assumptions C39_prefix_lines.
Lemma exists_last_or_nil : forall A (l : list A), l = [] \/ exists front x, l = (front ++ [x])%list.
Proof. intros A l. destruct l as [|y l]; [left; reflexivity|]. right. destruct (@exists_last A (y :: l)) as (f & x & E); [discriminate|]. exists f, x. exact E. Qed.
(** At most one empty line is removed, at the end, and one is removed if there is one. *)
Theorem C39_tail_line_partial : forall l,
  (exists front, l = (front ++ [""])%list /\ trim_tail_empty l = front)
  \/ ((forall front, l <> (front ++ [""])%list) /\ trim_tail_empty l = l).
Proof.
  intro l. destruct (exists_last_or_nil _ l) as [->|(front & x & ->)].
  - right. split; [intros [|y f]; discriminate|reflexivity].
  - unfold trim_tail_empty. rewrite last_last, removelast_last.
    destruct (String.eqb x "") eqn:E.
    + apply String.eqb_eq in E. subst x. left. exists front. split; [reflexivity|]. destruct (front ++ [""])%list eqn:F; [destruct front; discriminate|reflexivity].
    + right. split; [|destruct (front ++ [x])%list eqn:F; [destruct front; discriminate|reflexivity]].
      intros f H. apply app_inj_tail in H. destruct H as [_ ->]. discriminate E.
Qed.
Print Assumptions C39_tail_line_partial.
Example C39_example :
  trim_has_prefix ["a"; "pgddl: b"; "c pgddl"] "pgddl" = ["a"; "c pgddl"] /\ trim_tail_empty ["a"; ""; "b"; ""] = ["a"; ""; "b"].
Proof. split; reflexivity. Qed.
(** A second empty line at the end stays. *)
Theorem C39_tail_refuted : exists l front, trim_tail_empty l = (front ++ [""])%list.
Proof. exists ["a"; ""; ""], ["a"]. reflexivity. Qed.
Print Assumptions C39_tail_refuted.

(** * C45: generating does not crash *)

(** If all fields of the annotated structs have a name and a tag, there is no panic. *)
Theorem C45_no_panic_partial : forall cfg look short srt dialect language i,
  (forall file nodes, In (file, nodes) (files_of i) -> all_tagged nodes = true) ->
  generate cfg look short srt dialect language i <> Panic.
Proof.
  intros cfg look short srt dialect language i H. unfold generate. destruct (String.eqb language "go"); [|discriminate].
  pose proof (parse_input_safe cfg look short srt i H) as P. destruct (parse_input cfg look short srt i); try contradiction; try discriminate.
  cbn [bind]. destruct (printer_of dialect); discriminate.
Qed.
Print Assumptions C45_no_panic_partial.
Example C45_no_panic_example : forallb (fun n => forallb tagged (n_types n)) [node_a; node_b] = true
  /\ generate demo look_simple (fun s => s) sort_small "oracle" "go" (demo_file node_a node_b) = Err.
Proof. split; reflexivity. Qed.
(** A field without a tag. *)
Theorem C45_no_tag_refuted : exists f, f_tag f = None /\ f_names f = ["ID"]
  /\ generate demo look_simple (fun s => s) sort_small "postgres" "go"
       (OneFile "a.go" (Some [mkNode [mkType "A" (Some [f])] [[mkLine "// pgddl: table: a" 3]]])) = Panic.
Proof. exists (mkField ["ID"] None ""). repeat split. Qed.
Print Assumptions C45_no_tag_refuted.
(** An embedded field (no names) whose column name is not given. *)
Theorem C45_embedded_refuted : exists f tag, f_tag f = Some tag /\ f_names f = []
  /\ generate demo look_simple (fun s => s) sort_small "postgres" "go"
       (OneFile "a.go" (Some [mkNode [mkType "A" (Some [f])] [[mkLine "// pgddl: table: a" 3]]])) = Panic.
Proof. exists (mkField [] (Some "`pgddl:""TEXT""`") ""), "`pgddl:""TEXT""`". repeat split. Qed.
Print Assumptions C45_embedded_refuted.

(** * C46: the destination *)

(** If the command succeeds the destination holds the generated text; if the
    destination cannot be opened it is untouched and an error is reported. *)
Theorem C46_destination_partial : forall cfg look short srt dialect language i old opens new result,
  generate_command cfg look short srt dialect language i old opens = (new, result) ->
  (result = Ok tt -> exists text, generate cfg look short srt dialect language i = Ok text /\ new = Some text)
  /\ (opens = false -> new = old /\ result = Err).
Proof.
  intros cfg look short srt dialect language i old opens new result H. unfold generate_command in H. split.
  - intros ->. destruct opens; [|discriminate]. destruct (generate cfg look short srt dialect language i) as [text| | |]; try discriminate.
    injection H as <-. exists text. split; reflexivity.
  - intros ->. injection H as <- <-. split; reflexivity.
Qed.
Print Assumptions C46_destination_partial.
Example C46_destination_example :
  generate_command demo look_simple (fun s => s) sort_small "postgres" "go" (Tree []) (Some "old") true
  = (Some (unlines ["-- Code generated by ddlctl. DO NOT EDIT."; "--"]), Ok tt).
Proof. reflexivity. Qed.
(** A failing command has already emptied the destination. *)
Theorem C46_truncated_refuted : exists i, generate_command demo look_simple (fun s => s) sort_small "postgres" "go" i (Some "CREATE TABLE t ();") true = (Some "", Err).
Proof. exists Missing. reflexivity. Qed.
Print Assumptions C46_truncated_refuted.
