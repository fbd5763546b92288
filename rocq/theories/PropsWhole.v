(** Properties of whole runs, from the sources to the database: C56, C59, C60. *)
From Coq Require Import Lia Permutation.
From Verif Require Import GoStr Token Lexer Ast Parser Diff LexSpec Printable Written PrintLex PrintStmt WrittenFacts Db DbFacts AppendFacts Tidy TidyFacts DiffSame Reconcile ReconcileFacts IndexText SqlRead ReadFacts SqlDbFacts.
From Verif Require Import Apply ApplySpec Intact SqlDb Generate GenSpec GenTold GenRead GenReadFacts Show ShowRead ShowPg ShowPgRead ShowMy ShowMyRead Resolve.
From Verif Require Import PropsDiff PropsApply GenFacts PropsRead PropsTold PropsGenRead PropsShow PropsShowPg PropsAnyOrder PropsShowMy.

(** * C56: applying a schema a second time does nothing *)

(** The second world is any world whose source is the same text and whose database shows, in
    whatever form, the catalogue that the first run left behind. *)
Theorem C56_second_apply_does_nothing_partial : forall w w' dsn src d s1 s2 s1' before before' after m0 ma m',
  working w -> approved w -> dialect_of (w_dialect w) = Some d -> srt_ok (w_srt w) ->
  w_resolve w dsn = Some s1 -> w_resolve w src = Some s2 ->
  parse d (w_srt w) s1 = Ok before -> parse d (w_srt w) s2 = Ok after ->
  served d m0 w -> describes d before m0 -> describes d after ma ->
  reconcilable d before after = true -> text_ok d before after = true ->
  printable d before = true -> printable d after = true -> index_names_ok d before = true -> index_names_ok d after = true ->
  (forall stmts, diff d (w_srt w) (w_sdiff w) (Some before) (Some after) = DOk stmts ->
     forallb (fun s => arrives d (text d s) && comment_arrives d (comment_of s)) stmts = true) ->
  w_load w' = true -> w_dialect w' = w_dialect w -> w_srt w' = w_srt w ->
  w_resolve w' src = Some s2 -> w_resolve w' dsn = Some s1' -> parse d (w_srt w) s1' = Ok before' ->
  describes d before' m' -> db_eq m' (sv_db (after_events d (fst (apply_command w [dsn; src])) m0)) ->
  tidy d before' = true -> same_style d before' after = true -> (d = Sp -> same_option_order before' after = true) ->
  snd (apply_command w [dsn; src]) = Done
  /\ diff_command w' [dsn; src] = ([], Done) /\ apply_command w' [dsn; src] = ([EPrint ("no difference" ++ nl)], Done).
Proof.
  intros w w' dsn src d s1 s2 s1' before before' after m0 ma m' Ww Wa Hd Hs R1 R2 P1 P2 S Db Da Rc To Pb Pa Nb Na Cl L' D' Sr R2' R1' P1' Db' Dq Ti St Oo.
  destruct (C48_apply_reaches_target_partial w dsn src d s1 s2 before after m0 ma Ww Wa Hd Hs R1 R2 P1 P2 S Db Da Rc To Pb Pa Nb Na Cl) as (tr & T1 & T2 & _).
  rewrite T1 in *. cbn [fst snd] in *. split; [reflexivity|].
  rewrite <- D' in Hd. rewrite <- Sr in P1', P2.
  apply (C28_no_difference_no_effect w' dsn src d s1' s2 before' after L' Hd R1' R2' P1' P2).
  apply (same_catalogue_no_difference d _ _ before' after m' ma); try assumption.
  - intro k. rewrite (Dq k). apply T2.
  - unfold reconcilable in Rc. rewrite !andb_true_iff in Rc. apply Rc.
Qed.
Print Assumptions C56_second_apply_does_nothing_partial.

(** In the world of C48, with the schema itself as what the database shows afterwards. *)
Definition afterwards (d : dialect) (name shown a : string) : world :=
  mkWorld true true name (sources shown a) (fun _ _ => true) "" (fun _ => true) (fun _ => true)
    (fun past q => snd (answer d q (after_events d past (catalogue d (schema d shown))))) (fun _ => true) id_sort no_text.
Definition settled (d : dialect) (shown a : string) : bool :=
  accepted d shown && described d (schema d shown) && tidy d (schema d shown) && same_style d (schema d shown) (schema d a)
  && match d with Sp => same_option_order (schema d shown) (schema d a) | _ => true end.
Lemma accepted_parse : forall d s, accepted d s = true -> parse d id_sort s = Ok (schema d s).
Proof. intros d s Hs. unfold accepted in Hs. unfold schema. destruct (parse d id_sort s); try discriminate Hs; reflexivity. Qed.
Corollary C56_serving : forall d name b a shown, dialect_of name = Some d -> appliable d b a = true -> settled d shown a = true ->
  db_eq (catalogue d (schema d shown)) (catalogue d (schema d a)) ->
  snd (apply_command (serving d name b a) ["db"; "new"]%string) = Done
  /\ diff_command (afterwards d name shown a) ["db"; "new"]%string = ([], Done)
  /\ apply_command (afterwards d name shown a) ["db"; "new"]%string = ([EPrint ("no difference" ++ nl)], Done).
Proof.
  intros d name b a shown Hd H St Eq. pose proof (C48_serving d name b a Hd H) as (tr & T1 & T2 & _).
  unfold appliable, fits, sayable in H. unfold settled in St.
  repeat match goal with K : _ && _ = true |- _ => apply andb_true_iff in K; let L := fresh "L" in destruct K as [K L] end.
  apply (C56_second_apply_does_nothing_partial (serving d name b a) (afterwards d name shown a) "db" "new" d b a shown (schema d b) (schema d shown) (schema d a)
           (catalogue d (schema d b)) (catalogue d (schema d a)) (catalogue d (schema d shown))); try assumption; try reflexivity.
  - repeat split.
  - left. reflexivity.
  - apply id_sort_ok.
  - apply accepted_parse. assumption.
  - apply accepted_parse. assumption.
  - apply serving_served.
  - apply described_ok. assumption.
  - apply described_ok. assumption.
  - intros stmts D. cbn [serving w_srt w_sdiff] in D. match goal with K : clean_texts _ _ _ = true |- _ => unfold clean_texts, diff_of in K; rewrite D in K; exact K end.
  - apply accepted_parse. assumption.
  - apply described_ok. assumption.
  - rewrite T1. cbn [fst]. intro k. rewrite (Eq k). symmetry. apply T2.
  - intro E. subst d. assumption.
Qed.
Print Assumptions C56_serving.
(** The database may show the schema in other words than the file. *)
Definition pg_shown : string := "CREATE TABLE t (a integer NOT NULL, b text, CONSTRAINT t_pkey PRIMARY KEY (a));".
Definition pg_source : string := "CREATE TABLE ""t"" (""a"" INTEGER NOT NULL PRIMARY KEY, ""b"" TEXT NULL);".
Definition pg_first : string := "CREATE TABLE t (a INTEGER NOT NULL, c INTEGER);".
Example C56_example : snd (apply_command (serving Pg "postgres" pg_first pg_source) ["db"; "new"]%string) = Done
  /\ apply_command (afterwards Pg "postgres" pg_shown pg_source) ["db"; "new"]%string = ([EPrint ("no difference" ++ nl)], Done).
Proof.
  assert (H : appliable Pg pg_first pg_source = true) by (vm_compute; reflexivity). assert (S : settled Pg pg_shown pg_source = true) by (vm_compute; reflexivity).
  destruct (C56_serving Pg "postgres" pg_first pg_source pg_shown eq_refl H S) as (A & _ & B); [|split; [exact A|exact B]].
  intro k. vm_compute. reflexivity.
Qed.

(** * C59: from the sources to the database *)

(** The server [s] has a database that consists of the statements [ws]: C54, C55, C57, C58. *)
Inductive has_database (srt : list constraint -> list constraint) : string -> dialect -> server -> list written -> Prop :=
| has_spanner : forall db wss, Forall2 consists db wss -> (forall t, In t db -> plain_table t) ->
    has_database srt "spanner" Sp (SpannerServer db) (List.concat wss)
| has_postgres : forall db l tables indexes, sorted_by_name "public" db l -> plain_pg db l -> p_consists_of "public" db l tables indexes ->
    has_database srt "postgres" Pg (PostgresServer db) (tables ++ indexes)
| has_mysql : forall db ws, Forall2 m_table_says db ws -> sort_keeps My srt ws ->
    has_database srt "mysql" My (MySqlServer (map (fun t => Some (m_table_text t)) db)) ws
| has_cockroach : forall db ws, Forall2 c_table_says db ws -> sort_keeps Crdb srt ws ->
    has_database srt "cockroachdb" Crdb (CockroachServer (Some (c_rows db []))) ws.
Lemma database_shown : forall srt name d s ws, has_database srt name d s ws -> forallb (written_ok d) ws = true ->
  exists text, show name s = Some text /\ parse d srt text = Ok (map (meant d) ws).
Proof.
  intros srt name d s ws H W. destruct H as [db wss C P|db l tables indexes B P C|db ws F K|db ws F K]; cbn [show String.eqb Ascii.eqb Bool.eqb].
  - eexists. split; [reflexivity|]. apply C54_shown_database_is_read_partial; assumption.
  - eexists. split; [reflexivity|]. apply (C55_any_catalogue_is_read_partial srt "public" db l); assumption.
  - apply C57_shown_database_is_read_partial; assumption.
  - apply C58_shown_database_is_read_partial; assumption.
Qed.

(** Two schemas of which the first can be turned into the second: the conditions of C48. *)
Record convertible (d : dialect) (srt : list constraint -> list constraint) (sdiff : string -> string -> string) (before after : ddl) (m0 ma : db) : Prop := {
  cv_before : describes d before m0; cv_after : describes d after ma;
  cv_reconcilable : reconcilable d before after = true; cv_text : text_ok d before after = true;
  cv_printable_before : printable d before = true; cv_printable_after : printable d after = true;
  cv_index_before : index_names_ok d before = true; cv_index_after : index_names_ok d after = true;
  cv_clean : forall stmts, diff d srt sdiff (Some before) (Some after) = DOk stmts ->
     forallb (fun s => arrives d (text d s) && comment_arrives d (comment_of s)) stmts = true }.

(** The arguments are a data source name and a directory of Go files.  The files ask for the
    statements [ls] (C49), which say the same as the written statements [wss] (C52); the database
    consists of the statements [wb] (C54, C55, C57, C58).  Then the schemas the files and the database
    mean are the ones compared, and if the one can be turned into the other the run succeeds, every
    statement is accepted and the catalogue is the one the files describe. *)
Theorem C59_sources_reach_database_partial : forall y cfg look short gsrt w name p d dsn dir files ls wss wb m0,
  dialect_for name p d -> w_dialect w = name -> (forall a, w_resolve w a = resolve y cfg look short gsrt "go" name a) ->
  y_entry y dsn = ANothing -> has_database (w_srt w) name d (y_server y dsn) wb -> forallb (written_ok d) wb = true ->
  y_entry y dir = ADirectory files -> good_tag (ddl_tag cfg) = true -> sorts gsrt -> plain_settings cfg ->
  (forall file nodes, In (file, Some nodes) files -> LexSpec.one_line (short file) = true /\ plain_nodes nodes) ->
  tree_says cfg look files ls -> Forall2 (Forall2 (says p d)) ls wss ->
  forallb (written_ok d) (List.concat wss) = true -> sort_keeps d (w_srt w) (List.concat wss) ->
  working w -> approved w -> srt_ok (w_srt w) -> served d m0 w ->
  exists wss', Forall2 (@Permutation written) wss' wss /\
  forall ma, convertible d (w_srt w) (w_sdiff w) (map (meant d) wb) (map (meant d) (List.concat wss')) m0 ma ->
  exists tr, apply_command w [dsn; dir] = (tr, Done) /\ db_eq (sv_db (after_events d tr m0)) ma /\ Forall (fun q => snd q = None) (sent tr).
Proof.
  intros y cfg look short gsrt w name p d dsn dir files ls wss wb m0 Df Wd Wr E1 Hb Wb E2 Gt Gs Pc Pn Ts Sy Wo Sk Ww Wa So Sv.
  destruct (database_shown _ _ _ _ _ Hb Wb) as (t1 & S1 & P1).
  destruct (C52_generated_tree_is_read_partial cfg look short gsrt (w_srt w) name p d files ls wss Gt Gs Df Pc Pn Ts Sy Wo Sk) as (t2 & wss' & G2 & Pm & P2).
  exists wss'. split; [exact Pm|]. intros ma [Cb Ca Cr Ct Cpb Cpa Cib Cia Cc].
  apply (C48_apply_reaches_target_partial w dsn dir d t1 t2 (map (meant d) wb) (map (meant d) (List.concat wss'))); try assumption.
  - rewrite Wd. destruct Df as [H|[H|[H|[H|[]]]]]; injection H as <- _ <-; reflexivity.
  - rewrite Wr. unfold resolve. rewrite E1. exact S1.
  - rewrite Wr. unfold resolve. rewrite E2, G2. reflexivity.
Qed.
Print Assumptions C59_sources_reach_database_partial.

(** A PostgreSQL database with one table and a directory with one annotated struct: the table
    gets a column and loses another. *)
Definition member_fields : list field :=
  [mkField ["ID"] (Some "`db:""id"" pgddl:""TEXT NOT NULL"" pk:""true""`") ""; mkField ["Name"] (Some "`pgddl:""TEXT""`") ""].
Definition member_node : cnode := mkNode [mkType "Member" (Some member_fields)] [[mkLine "// pgddl: table: public.members" 3]].
Definition member_files : list (string * option (list cnode)) := [("README.md", None); ("a.go", Some [member_node])].
Definition members_told : list gstmt :=
  [GTable (mkGTable "" 0 [] "CREATE TABLE public.members" [mkGColumn [] "id" "TEXT NOT NULL"; mkGColumn [] "Name" "TEXT"] [] [] ["id"])].
Definition members_written : list written :=
  [WTable (mkWT false (in_public "members")
     (map ICol [mkWC (marked PgPrinter "id") (mkDT "TEXT" TOKEN_TEXT None) [KNotNull] [] LNone; mkWC (marked PgPrinter "Name") (mkDT "TEXT" TOKEN_TEXT None) [] [] LNone]
      ++ key_item PgPrinter ["id"])%list [] None)].
Definition members_db : list p_table :=
  [mkPTable "public" "members" false [mkPColumn "id" "text" None "" false None; mkPColumn "age" "integer" None "" true (Some "1")] [mkPConstraint "members_pkey" PPrimary ["id"]] []].
Definition members_stored : list written :=
  [WTable (mkWT false (in_public "members")
     [ICol (mkWC (plain_name "id") (mkDT "text" "TEXT" None) [KNotNull] [] LNone);
      ICol (mkWC (plain_name "age") (mkDT "integer" "INTEGER" None) [KDefault (names ["1"])] [] LNone);
      ICon (CPrimary (Some (plain_name "members_pkey")) [mkCI (plain_name "id") None])] [] None)].
Definition members_system : system :=
  mkSystem (fun a => if String.eqb a "db" then ANothing else ADirectory member_files) (fun _ => PostgresServer members_db).
Definition members_world : world :=
  mkWorld true true "postgres" (fun a => resolve members_system cfg0 look_simple (fun s => s) sort_small "go" "postgres" a) (fun _ _ => true) "" (fun _ => true) (fun _ => true)
    (fun past q => snd (answer Pg q (after_events Pg past (catalogue Pg (map (meant Pg) members_stored))))) (fun _ => true) id_sort no_text.
Lemma members_says : file_says cfg0 look_simple [member_node] members_told.
Proof.
  eexists [[_]]. split; [|reflexivity]. constructor; [|constructor].
  apply (node_struct cfg0 look_simple member_node "Member" member_fields [Some ("id", "TEXT NOT NULL", true); Some ("Name", "TEXT", false)]
      [[NTable "CREATE TABLE public.members"]]); [reflexivity|discriminate|reflexivity| |].
  - constructor; [|constructor; [|constructor]].
    + eapply told_column; [reflexivity|solve_tag "db:""id"" pgddl:""TEXT NOT NULL"" pk:""true"""|apply not_void; reflexivity|apply not_void; reflexivity|cbn; tauto].
    + eapply told_field; [reflexivity|solve_tag "pgddl:""TEXT"""|apply not_void; reflexivity|split; [discriminate|intros [H|H]; discriminate]].
  - constructor; [|constructor]. unfold group_says. cbn [map cl_text]. constructor; [|constructor].
    apply (says_table _ "table" "public.members"); [left; reflexivity|reflexivity|apply creates_short; left; reflexivity|solve_annotation 1 0 0 0 1].
Qed.
Lemma members_consist : p_consists members_db members_stored [].
Proof.
  split; [constructor; [|constructor]|constructor]. split; [reflexivity|]. eexists [_; _], [_]. split; [reflexivity|]. split.
  - constructor; [apply (column_check _ _ []); try reflexivity; alike_by_computation|]. constructor; [|constructor].
    apply (column_check _ _ [KDefault (names ["1"])]); try reflexivity; [alike_by_computation|]. exists (names ["1"]). split; [reflexivity|]. alike_by_computation.
  - constructor; [reflexivity|]. constructor.
Qed.
Lemma permuted_one : forall (x : written) wss, Forall2 (@Permutation written) wss [[x]] -> wss = [[x]].
Proof.
  intros x wss H. inversion H as [|a b c e P Q]; subst. inversion Q; subst. apply Permutation_sym, Permutation_length_1_inv in P. subst. reflexivity.
Qed.
Example C59_example : exists tr, apply_command members_world ["db"; "src"]%string = (tr, Done)
  /\ db_eq (sv_db (after_events Pg tr (catalogue Pg (map (meant Pg) members_stored)))) (catalogue Pg (map (meant Pg) members_written))
  /\ Forall (fun q => snd q = None) (sent tr).
Proof.
  edestruct (C59_sources_reach_database_partial members_system cfg0 look_simple (fun s => s) sort_small members_world "postgres" PgPrinter Pg "db" "src"
    member_files [members_told] [members_written] (members_stored ++ []) (catalogue Pg (map (meant Pg) members_stored))) as (wss' & Pm & R).
  - left. reflexivity.
  - reflexivity.
  - reflexivity.
  - reflexivity.
  - apply (has_postgres id_sort members_db members_db members_stored []).
    + split; [apply Permutation_refl|]. intros a x b y c E. destruct a as [|? a]; [|destruct a; discriminate E]. destruct b; discriminate E.
    + constructor.
      * intros t [<-|[]]. split; [discriminate|]. intros c I; cbn in I; repeat (destruct I as [<-|I]; [reflexivity|]); destruct I.
      * intros t c [<-|[]] [<-|[]]. split; [reflexivity|]. split; [discriminate|]. intros [].
      * intros t i t' c [<-|[]] [].
    + exact members_consist.
  - vm_compute. reflexivity.
  - reflexivity.
  - reflexivity.
  - exact sort_small_sorts.
  - constructor; reflexivity.
  - intros file nodes [H|[H|[]]]; [discriminate H|injection H as <- <-]. split; [reflexivity|]. intros n [<-|[]]. plain_.
  - apply tree_other; [intro H; apply go_source_iff in H; discriminate|]. apply tree_file; [apply go_source_iff; reflexivity|exact members_says|constructor].
  - constructor; [|constructor]. Forall2_. eapply says_a_table; [alike_|reflexivity|Forall2_; (split; [reflexivity|alike_])|Forall2_|repeat split; reflexivity].
  - vm_compute. reflexivity.
  - intros t I. exact Logic.I.
  - repeat split.
  - left. reflexivity.
  - apply id_sort_ok.
  - intros past q. reflexivity.
  - apply permuted_one in Pm. subst wss'. apply R. constructor; try (vm_compute; reflexivity).
    + apply (described_ok Pg). vm_compute. reflexivity.
    + apply (described_ok Pg). vm_compute. reflexivity.
    + intros stmts D. cbn [members_world w_srt w_sdiff] in D. vm_compute in D. injection D as <-. vm_compute. reflexivity.
Qed.
(** What the run sends. *)
Example C59_example_sent : map fst (sent (fst (apply_command members_world ["db"; "src"]%string)))
  = ["ALTER TABLE public.members DROP COLUMN age"; "ALTER TABLE public.members ADD COLUMN ""Name"" TEXT"].
Proof. vm_compute. reflexivity. Qed.

(** * C60: what the arguments stand for *)

(** Diff looks only: it prints at most, whatever the arguments are. *)
Theorem C60_diff_only_prints : forall w args e, In e (fst (diff_command w args)) -> exists s, e = EPrint s.
Proof.
  intros w args e H. unfold diff_command in H.
  repeat match type of H with context [match ?x with _ => _ end] => destruct x end; cbn [fst] in H; try destruct H as [<-|[]]; try destruct H. eexists. reflexivity.
Qed.
Print Assumptions C60_diff_only_prints.

(** What generate or show print and is saved in a file agrees with what it was made from. *)
Theorem C60_saved_text_agrees : forall y cfg look short gsrt language w d from file text l, w_load w = true -> dialect_of (w_dialect w) = Some d ->
  (forall a, w_resolve w a = resolve y cfg look short gsrt language (w_dialect w) a) ->
  y_entry y file = AFile (Some text) -> parse d (w_srt w) text = Ok l ->
  (exists files, y_entry y from = ADirectory files /\ generate cfg look short gsrt (w_dialect w) language (Tree files) = Ok text)
  \/ (y_entry y from = ANothing /\ show (w_dialect w) (y_server y from) = Some text) ->
  forall a b, In a [from; file] -> In b [from; file] ->
  diff_command w [a; b] = ([], Done) /\ apply_command w [a; b] = ([EPrint ("no difference" ++ nl)], Done).
Proof.
  intros y cfg look short gsrt language w d from file text l L D R F P O a b Ia Ib.
  assert (Rf : w_resolve w file = Some text) by (rewrite R; unfold resolve; rewrite F; reflexivity).
  assert (Ro : w_resolve w from = Some text) by (rewrite R; unfold resolve; destruct O as [(files & -> & ->)|[-> ->]]; reflexivity).
  assert (Ra : w_resolve w a = Some text) by (destruct Ia as [<-|[<-|[]]]; assumption).
  assert (Rb : w_resolve w b = Some text) by (destruct Ib as [<-|[<-|[]]]; assumption).
  apply (C28_no_difference_no_effect w a b d text text l l); try assumption. apply C11_schema_equals_itself.
Qed.
Print Assumptions C60_saved_text_agrees.
Example C60_saved_example : forall w d, w = mkWorld true true "postgres"
    (fun a => resolve (mkSystem (fun a => if String.eqb a "db" then ANothing else AFile (Some (show_postgres "public" members_db))) (fun _ => PostgresServer members_db))
                cfg0 look_simple (fun s => s) sort_small "go" "postgres" a)
    (fun _ _ => true) "" (fun _ => true) (fun _ => true) d (fun _ => true) id_sort no_text ->
  apply_command w ["db"; "saved.sql"]%string = ([EPrint ("no difference" ++ nl)], Done).
Proof.
  intros w d ->. assert (P : exists l, parse Pg id_sort (show_postgres "public" members_db) = Ok l) by (eexists; vm_compute; reflexivity). destruct P as [l P].
  eapply (C60_saved_text_agrees _ _ _ _ _ _ _ Pg "db" "saved.sql" _ l); [reflexivity|reflexivity|intro a; reflexivity|reflexivity|exact P|right; split; reflexivity|left; reflexivity|right; left; reflexivity].
Qed.

(** A single Go file, however, is taken for SQL: generate accepts it, diff and apply never do. *)
Lemma package_first : forall d srt r l, parse d srt ("package " ++ r)%string <> Ok l.
Proof.
  intros d srt r l.
  assert (F : FF d "package " [W d "package"]) by (apply (lit_FF d _ " "%char); destruct d; try reflexivity; vm_compute; reflexivity).
  destruct F as [_ F]. unfold parse. rewrite (F r). unfold parse_tokens. set (rest := lex d r). change ([W d "package"] ++ rest)%list with (W d "package" :: rest).
  match goal with |- (if ?b then _ else _) <> _ => destruct b; [discriminate|] end. cbn [parse_loop].
  replace (eqs (curT (W d "package" :: rest)) TOKEN_CREATE) with false by (destruct d; reflexivity).
  replace (isin (curT (W d "package" :: rest)) [TOKEN_CLOSE_PAREN; TOKEN_SEMICOLON]) with false by (destruct d; reflexivity).
  replace (eqs (curT (W d "package" :: rest)) TOKEN_EOF) with false by (destruct d; reflexivity). discriminate.
Qed.
Theorem C60_go_file_refuted : forall w a b r, (w_resolve w a = Some ("package " ++ r)%string \/ w_resolve w b = Some ("package " ++ r)%string) ->
  snd (diff_command w [a; b]) <> Done /\ snd (apply_command w [a; b]) <> Done.
Proof.
  intros w a b r H. assert (T : diff_text w a b = DiffFailed \/ diff_text w a b = DiffCrashed).
  { unfold diff_text. destruct H as [H|H]; rewrite H;
    repeat match goal with |- context [match ?x with _ => _ end] => let E := fresh "E" in destruct x eqn:E; auto end; exfalso; eapply package_first; eassumption. }
  unfold diff_command, apply_command. destruct (w_load w); cbn [negb]; [|split; discriminate]. destruct T as [-> | ->]; split; discriminate.
Qed.
Print Assumptions C60_go_file_refuted.
(** The file of C59 is accepted by generate, alone as well as in its directory. *)
Example C60_go_file_example : exists text, generate cfg0 look_simple (fun s => s) sort_small "postgres" "go" (OneFile "a.go" (Some [member_node])) = Ok text
  /\ exists l, parse Pg id_sort text = Ok l.
Proof. eexists. split; [vm_compute; reflexivity|]. eexists. vm_compute. reflexivity. Qed.
