(** C52: the text generated from Go sources is read as the schema they describe. *)
From Coq Require Import Permutation Lia.
From Verif Require Import GoStr Token Lexer Ast Parser LexSpec Printable Written PrintStmt PrintDdl WrittenFacts.
From Verif Require Import Generate GenSpec GenFacts GenSafe GenTold GenToldFacts GenRead GenReadFacts GenRemarks PropsTold.

(** * C52 *)

(** When the sort of the cockroachdb and mysql parsers keeps the primary key in front. *)
Definition sort_keeps (d : dialect) (srt : list constraint -> list constraint) (ws : list written) : Prop :=
  forall t, In (WTable t) ws -> match d with
    | Crdb | My => forall cs, 12 < List.length cs <= List.length (table_constraints d t) ->
                   forallb (fun c => negb (is_pkey c)) (tl cs) = true -> srt cs = cs
    | _ => True end.
Lemma sort_keeps_small : forall d srt ws, (forall t, In (WTable t) ws -> List.length (table_constraints d t) <= 12) -> sort_keeps d srt ws.
Proof. intros d srt ws H t I. specialize (H t I). destruct d; try exact Logic.I; intros cs L; lia. Qed.

(** Printed statements: if each says the same as a written statement (GenRead.v: the
    annotated texts have the tokens of the parts of that statement), the printed text is read
    as these statements.  Missing for the full property: annotations that do not form a
    statement of [written_ok] or leave a quotation or comment open, and the cases refuted below. *)
Theorem C52_printed_text_is_read_partial : forall p d short srt l ws, speaks p d = true ->
  (forall s, In s l -> remarks_ok short s) -> Forall2 (says p d) l ws -> forallb (written_ok d) ws = true -> sort_keeps d srt ws ->
  parse d srt (print_ddl p short l) = Ok (map (meant d) ws).
Proof.
  intros p d short srt l ws P R F W K. apply written_parse; [|exact W|apply generated_text; assumption].
  intros w Hin. unfold wkept, sorter, keeps_primary_first. destruct w as [t|x]; [|exact I]. specialize (K t Hin). destruct d; try exact I; exact K.
Qed.
Print Assumptions C52_printed_text_is_read_partial.

(** Comments play no part in what a statement says. *)
Lemma Forall2_map_l : forall {A B C : Type} (f : A -> B) (R : B -> C -> Prop) l r, Forall2 R (map f l) r -> Forall2 (fun x y => R (f x) y) l r.
Proof.
  intros A B C f R l. induction l as [|x l IH]; intros r H; inversion H; subst; constructor; try assumption; apply IH; assumption.
Qed.
Lemma says_bare : forall p d s w, says p d (bare s) w -> says p d s w.
Proof.
  intros p d [t|i] w H; inversion H as [t' w' cols cons H1 H2 H3 H4 H5|i' x H1]; subst; [|apply says_an_index; exact H1].
  cbn [g_create g_columns g_constraints g_options g_pk] in *. apply Forall2_map_l in H3. apply Forall2_map_l in H4.
  eapply says_a_table; [exact H1|exact H2|exact H3|exact H4|]. unfold options_say in *. cbn [g_options g_pk g_columns] in H5. destruct d.
  - destruct H5 as (A & B). split; [|exact B]. destruct (g_options t); [reflexivity|discriminate A].
  - destruct H5 as (A & B). split; [|exact B]. destruct (g_options t); [reflexivity|discriminate A].
  - destruct H5 as (A & B). split; [exact A|]. destruct (g_options t) as [|x [|y r]]; exact B.
  - destruct H5 as (o & A & B & C & D). apply Forall2_map_l in B. exists o. split; [exact A|]. split; [exact B|]. split; [exact C|]. rewrite map_map in D. exact D.
Qed.
Lemma says_permuted : forall p d out l ws, Permutation (map bare out) l -> Forall2 (says p d) l ws ->
  exists ws', Permutation ws' ws /\ Forall2 (says p d) out ws'.
Proof.
  intros p d out l ws P F. destruct (Permutation_Forall2 (Permutation_sym P) F) as (ws' & Q & F'). exists ws'. split; [apply Permutation_sym, Q|].
  apply Forall2_map_l in F'. clear P Q F. induction F' as [|a b out' ws' H F' IH]; constructor; [apply says_bare, H|exact IH].
Qed.
Lemma permuted_ok : forall d (ws ws' : list written), Permutation ws' ws -> forallb (written_ok d) ws = true -> forallb (written_ok d) ws' = true.
Proof. intros d ws ws' P H. rewrite forallb_forall in *. intros x I. apply H. eapply Permutation_in; eassumption. Qed.
Lemma permuted_keeps : forall d srt (ws ws' : list written), Permutation ws' ws -> sort_keeps d srt ws -> sort_keeps d srt ws'.
Proof. intros d srt ws ws' P H t I. apply H. eapply Permutation_in; eassumption. Qed.

(** The dialects of the command and their printers and parsers. *)
Definition dialect_for (name : string) (p : printer) (d : dialect) : Prop :=
  In (name, p, d) [("postgres", PgPrinter, Pg); ("cockroachdb", PgPrinter, Crdb); ("mysql", MyPrinter, My); ("spanner", SpPrinter, Sp)].
Lemma dialect_for_speaks : forall name p d, dialect_for name p d -> printer_for name p /\ speaks p d = true.
Proof. intros name p d [H|[H|[H|[H|[]]]]]; injection H as <- <- <-; (split; [|reflexivity]); cbn; tauto. Qed.

(** From the sources to the schema: the statements a file asks for ([file_says], C49) say the
    same as the written statements [ws]; then generating succeeds and its text is read as the
    schema meant by [ws], in the order of the lines (C51). *)
Theorem C52_generated_file_is_read_partial : forall cfg look short gsrt srt name p d file nodes l ws,
  good_tag (ddl_tag cfg) = true -> sorts gsrt -> dialect_for name p d -> plain_settings cfg -> LexSpec.one_line (short file) = true -> plain_nodes nodes ->
  file_says cfg look nodes l -> l <> [] -> Forall2 (says p d) l ws -> forallb (written_ok d) ws = true -> sort_keeps d srt ws ->
  exists text ws', generate cfg look short gsrt name "go" (OneFile file (Some nodes)) = Ok text
    /\ Permutation ws' ws /\ parse d srt text = Ok (map (meant d) ws').
Proof.
  intros cfg look short gsrt srt name p d file nodes l ws T S D C F N H Hl Y W K. destruct (dialect_for_speaks _ _ _ D) as [P SP].
  destruct (C49_file cfg look short gsrt file nodes l T S H Hl) as (out & E & B).
  destruct (says_permuted p d out l ws B Y) as (ws' & Q & Y'). exists (print_ddl p short out), ws'. split; [|split; [exact Q|]].
  - unfold generate, parse_input. rewrite E. cbn [String.eqb]. destruct P as [P|[P|[P|[P|[]]]]]; injection P as <- <-; reflexivity.
  - apply C52_printed_text_is_read_partial; [exact SP| |exact Y'|eapply permuted_ok; eassumption|eapply permuted_keeps; eassumption].
    eapply file_remarks; eassumption.
Qed.
Print Assumptions C52_generated_file_is_read_partial.

(** The same for a directory, file by file. *)
Lemma trees_permuted : forall p d outs ls wss, Forall2 (fun out l => Permutation (map bare out) l) outs ls -> Forall2 (Forall2 (says p d)) ls wss ->
  exists wss', Forall2 (@Permutation written) wss' wss /\ Forall2 (says p d) (List.concat outs) (List.concat wss').
Proof.
  intros p d outs ls wss H. revert wss. induction H as [|out l outs ls P H IH]; intros wss F; inversion F as [|? ws ? wss0 F1 F2]; subst.
  - exists []. split; constructor.
  - destruct (IH _ F2) as (wss' & A & B). destruct (says_permuted p d out l ws P F1) as (ws' & Q & Y). exists (ws' :: wss'). split; [constructor; assumption|].
    cbn [List.concat]. apply Forall2_app; assumption.
Qed.
Lemma concat_permuted : forall (a b : list (list written)), Forall2 (@Permutation written) a b -> Permutation (List.concat a) (List.concat b).
Proof. intros a b H. induction H; [constructor|]. cbn [List.concat]. apply Permutation_app; assumption. Qed.
Theorem C52_generated_tree_is_read_partial : forall cfg look short gsrt srt name p d files ls wss,
  good_tag (ddl_tag cfg) = true -> sorts gsrt -> dialect_for name p d -> plain_settings cfg ->
  (forall file nodes, In (file, Some nodes) files -> LexSpec.one_line (short file) = true /\ plain_nodes nodes) ->
  tree_says cfg look files ls -> Forall2 (Forall2 (says p d)) ls wss -> forallb (written_ok d) (List.concat wss) = true -> sort_keeps d srt (List.concat wss) ->
  exists text wss', generate cfg look short gsrt name "go" (Tree files) = Ok text
    /\ Forall2 (@Permutation written) wss' wss /\ parse d srt text = Ok (map (meant d) (List.concat wss')).
Proof.
  intros cfg look short gsrt srt name p d files ls wss T S D C N H Y W K. destruct (dialect_for_speaks _ _ _ D) as [P SP].
  destruct (C49_tree cfg look short gsrt files ls T S H) as (outs & E & B).
  destruct (trees_permuted p d outs ls wss B Y) as (wss' & Q & Y'). exists (print_ddl p short (List.concat outs)), wss'. split; [|split; [exact Q|]].
  - unfold generate, parse_input. rewrite E. cbn [String.eqb]. destruct P as [P|[P|[P|[P|[]]]]]; injection P as <- <-; reflexivity.
  - apply concat_permuted in Q.
    apply C52_printed_text_is_read_partial; [exact SP| |exact Y'|eapply permuted_ok; eassumption|eapply permuted_keeps; eassumption].
    eapply tree_remarks; eassumption.
Qed.
Print Assumptions C52_generated_tree_is_read_partial.

(** Examples.  End to end for postgres: the struct of C49, its index and its constraint. *)
Definition users_told : list gstmt :=
  [GIndex (mkGIndex "" 0 [] "CREATE UNIQUE INDEX i ON users (id)");
   GTable (mkGTable "" 0 [] "CREATE TABLE users" [mkGColumn [] "id" "TEXT NOT NULL"; mkGColumn [] "Name" "TEXT"] [mkGText [] "UNIQUE (Name)"] [] ["id"])].
Lemma users_says : file_says cfg0 look_simple [user_node] users_told.
Proof.
  eexists [[_; _]]. split; [|reflexivity]. constructor; [|constructor].
  apply (node_struct cfg0 look_simple user_node "User" user_fields [Some ("id", "TEXT NOT NULL", true); Some ("Name", "TEXT", false); None; None]
      [[NRemark; NTable "CREATE TABLE users"; NIndex "CREATE UNIQUE INDEX i ON users (id)"; NRemark; NConstraint "UNIQUE (Name)"]]); [reflexivity|discriminate|reflexivity| |].
  - constructor; [|constructor; [|constructor; [|constructor; [|constructor]]]].
    + eapply told_column; [reflexivity|solve_tag "db:""id"" pgddl:""TEXT NOT NULL"" pk:""true"""|apply not_void; reflexivity|apply not_void; reflexivity|cbn; tauto].
    + eapply told_field; [reflexivity|solve_tag "pgddl:""TEXT"""|apply not_void; reflexivity|split; [discriminate|intros [H|H]; discriminate]].
    + eapply told_ignored; [reflexivity|solve_tag "db:""-"" pgddl:""TEXT"""].
    + eapply told_untyped; [reflexivity|solve_tag "db:""note"""|left; reflexivity].
  - constructor; [|constructor]. unfold group_says. cbn [map cl_text]. constructor; [|constructor; [|constructor; [|constructor; [|constructor; [|constructor]]]]].
    + apply (says_remark _ 1 "User" " is a user."); [reflexivity|reflexivity|reflexivity|right; exists 0, "i"%char, "s a user."; split; [reflexivity|split; [reflexivity|discriminate]]|reflexivity].
    + apply (says_table _ "table" "users"); [left; reflexivity|reflexivity|apply creates_short; left; reflexivity|solve_annotation 1 0 0 0 1].
    + apply (says_index _ "index" "CREATE UNIQUE INDEX i ON users (id)"); [left; reflexivity|reflexivity|apply (creates_full "INDEX" "CREATE" 0 "UNIQUE " "INDEX" "i ON users (id)"); reflexivity|solve_annotation 1 0 0 0 1].
    + apply (says_nothing _ 0).
    + apply (says_constraint _ "constraints"); [right; reflexivity|reflexivity|solve_annotation 0 0 0 0 2].
Qed.
Definition w_ (s : string) : ident := plain_name s.
Definition ci_ (s : string) : colident := mkCI (w_ s) None.
Definition users_written : list written :=
  [WIndex (mkCX "" true false (mkON None (w_ "i")) (mkON None (w_ "users")) [] None [ci_ "id"] None);
   WTable (mkWT false (mkON None (w_ "users"))
     (map ICol [mkWC (marked PgPrinter "id") (mkDT "TEXT" TOKEN_TEXT None) [KNotNull] [] LNone; mkWC (marked PgPrinter "Name") (mkDT "TEXT" TOKEN_TEXT None) [] [] LNone]
      ++ key_item PgPrinter ["id"] ++ [INameless (CUnique None [ci_ "Name"])])%list [] None)].
Ltac alike_ := split; [vm_compute; reflexivity|split; vm_compute; reflexivity].
Ltac Forall2_ := repeat first [apply Forall2_nil | apply Forall2_cons].
Lemma users_alike : Forall2 (says PgPrinter Pg) users_told users_written.
Proof.
  Forall2_.
  - apply says_an_index. alike_.
  - eapply says_a_table; [alike_|reflexivity|Forall2_; (split; [reflexivity|alike_])|Forall2_; (split; [reflexivity|alike_])|repeat split; reflexivity].
Qed.
Ltac plain_ := split;
  [intros t It; cbn in It; repeat (destruct It as [It|It]; [subst t; split; [reflexivity|]|]); try destruct It;
   intros fs f Ef If; injection Ef as <-; cbn in If; repeat (destruct If as [If|If]; [subst f; split; [reflexivity|intros x [<-|[]]; reflexivity]|]); destruct If
  |intros g l Ig Il; cbn in Ig; repeat (destruct Ig as [Ig|Ig]; [subst g; cbn in Il; repeat (destruct Il as [Il|Il]; [subst l; reflexivity|]); destruct Il|]); destruct Ig].
Lemma users_plain : plain_nodes [user_node].
Proof. intros n [<-|[]]. plain_. Qed.
Example C52_example_postgres : forall srt, exists text ws',
  generate cfg0 look_simple (fun s => s) sort_small "postgres" "go" (OneFile "a.go" (Some [user_node])) = Ok text
  /\ Permutation ws' users_written /\ parse Pg srt text = Ok (map (meant Pg) ws').
Proof.
  intro srt. eapply C52_generated_file_is_read_partial with (p := PgPrinter) (l := users_told).
  - reflexivity.
  - exact sort_small_sorts.
  - left; reflexivity.
  - constructor; reflexivity.
  - reflexivity.
  - exact users_plain.
  - exact users_says.
  - discriminate.
  - exact users_alike.
  - vm_compute; reflexivity.
  - intros t I. exact Logic.I.
Qed.
Example C52_example_tree : forall srt, exists text wss',
  generate cfg0 look_simple (fun s => s) sort_small "postgres" "go" (Tree [("README.md", None); ("a.go", Some [user_node])]) = Ok text
  /\ Forall2 (@Permutation written) wss' [users_written] /\ parse Pg srt text = Ok (map (meant Pg) (List.concat wss')).
Proof.
  intro srt. eapply C52_generated_tree_is_read_partial with (p := PgPrinter) (ls := [users_told]).
  - reflexivity.
  - exact sort_small_sorts.
  - left; reflexivity.
  - constructor; reflexivity.
  - intros file nodes [H|[H|[]]]; [discriminate H|injection H as <- <-]. split; [reflexivity|exact users_plain].
  - apply tree_other; [intro H; apply go_source_iff in H; discriminate|]. apply tree_file; [apply go_source_iff; reflexivity|exact users_says|constructor].
  - constructor; [exact users_alike|constructor].
  - vm_compute; reflexivity.
  - intros t I. exact Logic.I.
Qed.
(** The schema that is meant. *)
Example C52_example_postgres_schema : ddl_string Pg (map (meant Pg) users_written) =
  ("CREATE UNIQUE INDEX i ON users (id);" ++ nl ++ "CREATE TABLE users (" ++ nl ++ "    ""id"" TEXT NOT NULL," ++ nl ++ "    ""Name"" TEXT," ++ nl
   ++ "    CONSTRAINT users_pkey PRIMARY KEY (""id"")," ++ nl ++ "    CONSTRAINT users_unique_Name UNIQUE (Name)" ++ nl ++ ");" ++ nl)%string.
Proof. vm_compute. reflexivity. Qed.

(** The other dialects, from the statements on. *)
Definition orders (p : printer) (cols : list gcolumn) (cons opts : list gtext) (pk : list string) : gstmt :=
  GTable (mkGTable "a.go" 7 ["a.go:7"; "orders of the day"] "CREATE TABLE IF NOT EXISTS  orders" cols cons opts pk).
Definition says_example (p : printer) (d : dialect) (l : list gstmt) (ws : list written) (text schema : string) : Prop :=
  speaks p d = true /\ (forall s, In s l -> remarks_ok (fun s => s) s) /\ Forall2 (says p d) l ws /\ forallb (written_ok d) ws = true
  /\ print_ddl p (fun s => s) l = text /\ ddl_string d (map (meant d) ws) = schema.
Ltac remarks_ := intros s [<-|[]]; split; vm_compute; reflexivity.
Example C52_example_cockroachdb : says_example PgPrinter Crdb
  [orders PgPrinter [mkGColumn ["the key"] "id" "INT8   NOT NULL  DEFAULT 0"; mkGColumn [] "tag" "STRING UNIQUE"] [mkGText ["fast"] "INDEX tag_idx (tag)"] [] ["id"]]
  [WTable (mkWT true (mkON None (w_ "orders"))
     (map ICol [mkWC (marked PgPrinter "id") (mkDT "INT8" TOKEN_INT8 None) [KNotNull; KDefault [w_ "0"]] [] LNone; mkWC (marked PgPrinter "tag") (mkDT "STRING" TOKEN_STRING None) [] [KUnique] LNone]
      ++ key_item PgPrinter ["id"] ++ [ICon (CIndex (Some (w_ "tag_idx")) false None [ci_ "tag"] None)])%list [] None)]
  ("-- Code generated by ddlctl. DO NOT EDIT." ++ nl ++ "--" ++ nl ++ nl ++ "-- source: a.go:7" ++ nl ++ "-- a.go:7" ++ nl ++ "-- orders of the day" ++ nl
   ++ "CREATE TABLE IF NOT EXISTS  orders (" ++ nl ++ "    -- the key" ++ nl ++ "    ""id""  INT8   NOT NULL  DEFAULT 0," ++ nl ++ "    ""tag"" STRING UNIQUE," ++ nl
   ++ "    PRIMARY KEY (""id"")," ++ nl ++ "    -- fast" ++ nl ++ "    INDEX tag_idx (tag)" ++ nl ++ ");" ++ nl)%string
  ("CREATE TABLE IF NOT EXISTS orders (" ++ nl ++ "    ""id"" INT8 NOT NULL DEFAULT 0," ++ nl ++ "    ""tag"" STRING," ++ nl ++ "    CONSTRAINT orders_pkey PRIMARY KEY (""id"")," ++ nl
   ++ "    UNIQUE INDEX orders_unique_tag (""tag"")," ++ nl ++ "    INDEX tag_idx (tag)" ++ nl ++ ");" ++ nl)%string.
Proof.
  split; [reflexivity|]. split; [remarks_|]. split; [|split; [|split]; vm_compute; reflexivity].
  Forall2_. eapply says_a_table; [alike_|reflexivity|Forall2_; (split; [reflexivity|alike_])|Forall2_; (split; [reflexivity|alike_])|repeat split; reflexivity].
Qed.
Example C52_example_mysql : says_example MyPrinter My
  [orders MyPrinter [mkGColumn ["the key"] "id" "INT AUTO_INCREMENT"; mkGColumn [] "tag" "VARCHAR(10)  NOT NULL COMMENT 'a -- b'"] [mkGText [] "CHECK (tag <> 'x')"]
     [mkGText [] "ENGINE = InnoDB"] ["id"; "tag"]]
  [WTable (mkWT true (mkON None (w_ "orders"))
     (map ICol [mkWC (marked MyPrinter "id") (mkDT "INT" TOKEN_INTEGER None) [KAutoIncrement] [] LNone;
                mkWC (marked MyPrinter "tag") (mkDT "VARCHAR" TOKEN_VARCHAR (Some [w_ "10"])) [KNotNull] [] (LComment "'a -- b'")]
      ++ key_item MyPrinter ["id"; "tag"] ++ [INameless (CCheck None (Some [w_ "("; w_ "tag"; w_ "<>"; mkIdent "x" "'" "'x'"; w_ ")"]))])%list [mkOpt "ENGINE" (Some [w_ "InnoDB"])] None)]
  ("-- Code generated by ddlctl. DO NOT EDIT." ++ nl ++ "--" ++ nl ++ nl ++ "-- source: a.go:7" ++ nl ++ "-- a.go:7" ++ nl ++ "-- orders of the day" ++ nl
   ++ "CREATE TABLE IF NOT EXISTS  orders (" ++ nl ++ "    -- the key" ++ nl ++ "    `id`  INT AUTO_INCREMENT," ++ nl ++ "    `tag` VARCHAR(10)  NOT NULL COMMENT 'a -- b'," ++ nl
   ++ "    PRIMARY KEY (`id`, `tag`)," ++ nl ++ "    CHECK (tag <> 'x')" ++ nl ++ ")" ++ nl ++ "ENGINE = InnoDB;" ++ nl)%string
  ("CREATE TABLE IF NOT EXISTS orders (" ++ nl ++ "    `id` INT NULL AUTO_INCREMENT," ++ nl ++ "    `tag` VARCHAR(10) NOT NULL COMMENT 'a -- b'," ++ nl ++ "    PRIMARY KEY (`id`, `tag`)," ++ nl
   ++ "    CONSTRAINT orders_chk CHECK (tag <> 'x')" ++ nl ++ ") ENGINE=InnoDB;" ++ nl)%string.
Proof.
  split; [reflexivity|]. split; [remarks_|]. split; [|split; [|split]; vm_compute; reflexivity].
  Forall2_. eapply says_a_table; [alike_|reflexivity|Forall2_; (split; [reflexivity|alike_])|Forall2_; (split; [reflexivity|alike_])|].
  split; [reflexivity|]. cbn [orders g_options]. split; [discriminate|alike_].
Qed.
Example C52_example_spanner : says_example SpPrinter Sp
  [orders SpPrinter [mkGColumn ["the key"] "id" "INT64"; mkGColumn [] "tag" "STRING(MAX)  NOT NULL"] [mkGText [] "CONSTRAINT f FOREIGN KEY (tag) REFERENCES u (id)"]
     [] ["id"; "tag"]]
  [WTable (mkWT true (mkON None (w_ "orders"))
     (map ICol [mkWC (marked SpPrinter "id") (mkDT "INT64" TOKEN_INT64 None) [] [] LNone;
                mkWC (marked SpPrinter "tag") (mkDT "STRING" TOKEN_STRING (Some [w_ "MAX"])) [KNotNull] [] LNone]
      ++ [ICon (CForeign (Some (w_ "f")) [ci_ "tag"] (w_ "u") [ci_ "id"] "")])%list (key_option SpPrinter ["id"; "tag"]) None)]
  ("-- Code generated by ddlctl. DO NOT EDIT." ++ nl ++ "--" ++ nl ++ nl ++ "-- source: a.go:7" ++ nl ++ "-- a.go:7" ++ nl ++ "-- orders of the day" ++ nl
   ++ "CREATE TABLE IF NOT EXISTS  orders (" ++ nl ++ "    -- the key" ++ nl ++ "    `id`  INT64," ++ nl ++ "    `tag` STRING(MAX)  NOT NULL," ++ nl
   ++ "    CONSTRAINT f FOREIGN KEY (tag) REFERENCES u (id)" ++ nl ++ ") PRIMARY KEY (`id`, `tag`);" ++ nl)%string
  ("CREATE TABLE IF NOT EXISTS orders (" ++ nl ++ "    `id` INT64," ++ nl ++ "    `tag` STRING(MAX) NOT NULL," ++ nl
   ++ "    CONSTRAINT f FOREIGN KEY (tag) REFERENCES u (id)" ++ nl ++ ") PRIMARY KEY (`id`, `tag`);" ++ nl)%string.
Proof.
  split; [reflexivity|]. split; [remarks_|]. split; [|split; [|split]; vm_compute; reflexivity].
  Forall2_. eapply says_a_table; [alike_|reflexivity|Forall2_; (split; [reflexivity|alike_])|Forall2_; (split; [reflexivity|alike_])|].
  cbn [orders g_options g_pk g_columns options_say wt_options wt_rowdel]. exists []. split; [reflexivity|]. split; [constructor|]. split; [congruence|].
  intros x [<-|[<-|[]]]; cbn; tauto.
Qed.

(** Where it fails.  Two option annotations are joined by a comma, which the mysql parser
    rejects though each option alone is read. *)
Definition orders_my (opts : list string) : gstmt := orders MyPrinter [mkGColumn [] "id" "INT"] [] (map (mkGText []) opts) ["id"].
Theorem C52_two_options_refuted : exists o1 o2, forall srt,
  (exists t, parse My srt (print_ddl MyPrinter (fun s => s) [orders_my [o1]]) = Ok [CreateTable t] /\ List.length (ct_options t) = 1)
  /\ (exists t, parse My srt (print_ddl MyPrinter (fun s => s) [orders_my [o2]]) = Ok [CreateTable t] /\ List.length (ct_options t) = 1)
  /\ parse My srt (print_ddl MyPrinter (fun s => s) [orders_my [o1; o2]]) = Err.
Proof.
  exists "ENGINE = InnoDB", "COMMENT = 'x'". intro srt. split; [|split]; [eexists; split; vm_compute; reflexivity|eexists; split; vm_compute; reflexivity|vm_compute; reflexivity].
Qed.
Print Assumptions C52_two_options_refuted.
(** A comment in a tag hides the comma behind it; behind a default value the next column
    becomes part of the value: of a struct with two fields one column is left. *)
Theorem C52_comment_in_tag_refuted : forall srt, exists a b t v,
  parse Pg srt (print_ddl PgPrinter (fun s => s) [GTable (mkGTable "a.go" 3 [] "CREATE TABLE t" [a; b] [] [] [])]) = Ok [CreateTable t]
  /\ map c_default (ct_columns t) = [Some (Some v)] /\ map id_raw v = ["0"; """b"""; "INTEGER"].
Proof.
  intro srt. exists (mkGColumn [] "a" "INTEGER DEFAULT 0 -- really"), (mkGColumn [] "b" "INTEGER"). eexists. eexists. split; [vm_compute; reflexivity|split; vm_compute; reflexivity].
Qed.
Print Assumptions C52_comment_in_tag_refuted.
(** Names of columns are put in quotation marks without doubling those they contain: a
    struct with one field is read as a table with two columns. *)
Theorem C52_quotation_in_name_refuted : forall srt, exists c t, parse Pg srt (print_ddl PgPrinter (fun s => s) [GTable (mkGTable "a.go" 3 [] "CREATE TABLE t" [c] [] [] [])]) = Ok [CreateTable t]
  /\ map (fun c => id_name (c_name c)) (ct_columns t) = ["a"; "b"].
Proof.
  intro srt. exists (mkGColumn [] ("a"" INT, ""b")%string "INT"). eexists. split; vm_compute; reflexivity.
Qed.
Print Assumptions C52_quotation_in_name_refuted.
