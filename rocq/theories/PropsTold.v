(** C49 - C51: generated statements are the ones the Go sources ask for. *)
From Coq Require Import Permutation Sorted Lia.
From Verif Require Import GoStr Token Lexer Ast Parser Lines Tidy IndexText LinesFacts.
From Verif Require Import Generate GenSpec GenFacts GenOrder GenText GenSafe GenTold GenToldFacts GenLines.

(** * C49: every annotated struct becomes a table with its columns *)

(** A file whose comment groups can be read line by line and whose fields are all
    named and tagged: no panic, and what is generated from it is, up to order and
    comments, what it asks for. *)
Theorem C49_file : forall cfg look short srt file nodes l, good_tag (ddl_tag cfg) = true -> sorts srt -> file_says cfg look nodes l -> l <> [] ->
  exists out, parse_file cfg look short srt file (Some nodes) = Ok (Some out) /\ Permutation (map bare out) l.
Proof.
  intros cfg look short srt file nodes l T S F N. cbn [parse_file].
  destruct (sources_told cfg look short file nodes l T F) as (out & E & B).
  destruct (extract_sources (ddl_tag cfg) nodes) as [|r rs] eqn:X.
  - cbn [read_sources] in E. injection E as <-. cbn in B. congruence.
  - rewrite E. cbn [bind]. exists (srt out). split; [reflexivity|]. rewrite <- B. apply Permutation_map. apply S.
Qed.
Print Assumptions C49_file.

(** Which files of a directory are read. *)
Definition go_source (name : string) : Prop := (exists stem, name = stem ++ ".go") /\ ~ (exists stem, name = stem ++ "_test.go").
(** The statements asked for by the files of a directory, file by file. *)
Inductive tree_says (cfg : settings) (look : string -> string -> string) : list (string * option (list cnode)) -> list (list gstmt) -> Prop :=
| tree_nil : tree_says cfg look [] []
| tree_other : forall name parsed r ls, ~ go_source name -> tree_says cfg look r ls -> tree_says cfg look ((name, parsed) :: r) ls
| tree_file : forall name nodes l r ls, go_source name -> file_says cfg look nodes l -> tree_says cfg look r ls -> tree_says cfg look ((name, Some nodes) :: r) (l :: ls).

Lemma ends_with_iff : forall suffix s, ends_with suffix s = true <-> exists stem, s = stem ++ suffix.
Proof.
  intros suffix s. unfold ends_with. split.
  - intro H. apply prefix_split in H. destruct H as (r & E). exists (rev_str r). rewrite <- (rev_str_rev s), E, rev_str_app, rev_str_rev. reflexivity.
  - intros (stem & ->). rewrite rev_str_app. apply prefix_app.
Qed.
Lemma go_source_iff : forall name, negb (ends_with ".go" name) || ends_with "_test.go" name = false <-> go_source name.
Proof.
  intro name. unfold go_source. rewrite <- !ends_with_iff. destruct (ends_with ".go" name), (ends_with "_test.go" name); cbn; intuition congruence.
Qed.

Theorem C49_tree : forall cfg look short srt files ls, good_tag (ddl_tag cfg) = true -> sorts srt -> tree_says cfg look files ls ->
  exists outs, parse_tree cfg look short srt files = Ok (List.concat outs) /\ Forall2 (fun out l => Permutation (map bare out) l) outs ls.
Proof.
  intros cfg look short srt files ls T S H. induction H as [|name parsed r ls N H IH|name nodes l r ls G F H IH].
  - exists []. split; [reflexivity|constructor].
  - destruct IH as (outs & E & P). exists outs. split; [|exact P]. cbn [parse_tree].
    destruct (negb (ends_with ".go" name) || ends_with "_test.go" name) eqn:X; [exact E|]. exfalso. apply N. apply go_source_iff. exact X.
  - destruct IH as (outs & E & P). cbn [parse_tree]. rewrite (proj2 (go_source_iff name) G).
    cbn [parse_file]. destruct (sources_told cfg look short name nodes l T F) as (out & Eo & B).
    destruct (extract_sources (ddl_tag cfg) nodes) as [|s ss] eqn:X.
    + cbn [bind]. rewrite E. cbn [bind]. cbn [read_sources] in Eo. injection Eo as <-. cbn in B. subst l. exists ([] :: outs). split; [reflexivity|]. constructor; [constructor|exact P].
    + rewrite Eo. cbn [bind]. rewrite E. cbn [bind]. exists (srt out :: outs). split; [reflexivity|]. constructor; [|exact P]. rewrite <- B. apply Permutation_map. apply S.
Qed.
Print Assumptions C49_tree.

(** The text: of the dialect's printer, for these statements. *)
Definition printer_for (dialect : string) (p : printer) : Prop :=
  In (dialect, p) [("postgres", PgPrinter); ("cockroachdb", PgPrinter); ("mysql", MyPrinter); ("spanner", SpPrinter)].
Theorem C49_generate : forall cfg look short srt dialect p file nodes l, good_tag (ddl_tag cfg) = true -> sorts srt -> printer_for dialect p ->
  file_says cfg look nodes l -> l <> [] ->
  exists out, generate cfg look short srt dialect "go" (OneFile file (Some nodes)) = Ok (print_ddl p short out) /\ Permutation (map bare out) l.
Proof.
  intros cfg look short srt dialect p file nodes l T S P F N. destruct (C49_file cfg look short srt file nodes l T S F N) as (out & E & B).
  exists out. split; [|exact B]. unfold generate, parse_input. rewrite E. cbn [String.eqb].
  destruct P as [P|[P|[P|[P|[]]]]]; injection P as <- <-; reflexivity.
Qed.
Print Assumptions C49_generate.
Theorem C49_generate_tree : forall cfg look short srt dialect p files ls, good_tag (ddl_tag cfg) = true -> sorts srt -> printer_for dialect p ->
  tree_says cfg look files ls ->
  exists outs, generate cfg look short srt dialect "go" (Tree files) = Ok (print_ddl p short (List.concat outs)) /\ Forall2 (fun out l => Permutation (map bare out) l) outs ls.
Proof.
  intros cfg look short srt dialect p files ls T S P F. destruct (C49_tree cfg look short srt files ls T S F) as (outs & E & B).
  exists outs. split; [|exact B]. unfold generate, parse_input. rewrite E. cbn [String.eqb].
  destruct P as [P|[P|[P|[P|[]]]]]; injection P as <- <-; reflexivity.
Qed.
Print Assumptions C49_generate_tree.

Definition cfg0 : settings := mkSettings "db" "pgddl" "pk".
Definition user_fields : list field :=
  [mkField ["ID"] (Some "`db:""id"" pgddl:""TEXT NOT NULL"" pk:""true""`") "";
   mkField ["Name"] (Some "`pgddl:""TEXT""`") "";
   mkField ["Secret"] (Some "`db:""-"" pgddl:""TEXT""`") "";
   mkField ["Note"] (Some "`db:""note""`") ""].
Definition user_node : cnode :=
  mkNode [mkType "User" (Some user_fields)]
    [[mkLine "// User is a user." 3; mkLine "// pgddl: table: users" 4; mkLine "// pgddl: index: CREATE UNIQUE INDEX i ON users (id)" 5;
      mkLine "//" 6; mkLine "//pgddl: constraints:  UNIQUE (Name)" 7]].
Definition plain_node : cnode := mkNode [mkType "Item" (Some [mkField ["ID"] (Some "`pgddl:""INT""`") ""])] [[mkLine "// pgddl: options: WITH (x)" 20]; [mkLine "// Nothing to see: here" 22]].

Ltac solve_annotation a b c d e := exists a, b, c, d, e; reflexivity.
Ltac solve_tag t := exists t; split; [reflexivity|repeat split; reflexivity].
Lemma not_void : forall s, String.eqb s "" || String.eqb s "-" = false -> ~ void s.
Proof. intros s H [->| ->]; discriminate. Qed.
Example C49_example_says : file_says cfg0 look_simple [user_node; plain_node]
  [GIndex (mkGIndex "" 0 [] "CREATE UNIQUE INDEX i ON users (id)");
   GTable (mkGTable "" 0 [] "CREATE TABLE users" [mkGColumn [] "id" "TEXT NOT NULL"; mkGColumn [] "Name" "TEXT"] [mkGText [] "UNIQUE (Name)"] [] ["id"]);
   GTable (mkGTable "" 0 [] "CREATE TABLE Item" [mkGColumn [] "ID" "INT"] [] [mkGText [] "WITH (x)"] [])].
Proof.
  eexists [[_; _]; [_]]. split; [|reflexivity]. constructor; [|constructor; [|constructor]].
  - apply (node_struct cfg0 look_simple user_node "User" user_fields [Some ("id", "TEXT NOT NULL", true); Some ("Name", "TEXT", false); None; None]
      [[NRemark; NTable "CREATE TABLE users"; NIndex "CREATE UNIQUE INDEX i ON users (id)"; NRemark; NConstraint "UNIQUE (Name)"]]); [reflexivity|discriminate|reflexivity| |].
    + constructor; [|constructor; [|constructor; [|constructor; [|constructor]]]].
      * eapply told_column; [reflexivity|solve_tag "db:""id"" pgddl:""TEXT NOT NULL"" pk:""true"""|apply not_void; reflexivity|apply not_void; reflexivity|cbn; tauto].
      * eapply told_field; [reflexivity|solve_tag "pgddl:""TEXT"""|apply not_void; reflexivity|split; [discriminate|intros [H|H]; discriminate]].
      * eapply told_ignored; [reflexivity|solve_tag "db:""-"" pgddl:""TEXT"""].
      * eapply told_untyped; [reflexivity|solve_tag "db:""note"""|left; reflexivity].
    + constructor; [|constructor]. unfold group_says. cbn [map cl_text]. constructor; [|constructor; [|constructor; [|constructor; [|constructor; [|constructor]]]]].
      * apply (says_remark _ 1 "User" " is a user."); [reflexivity|reflexivity|reflexivity|right; exists 0, "i"%char, "s a user."; split; [reflexivity|split; [reflexivity|discriminate]]|reflexivity].
      * apply (says_table _ "table" "users"); [left; reflexivity|reflexivity|apply creates_short; left; reflexivity|solve_annotation 1 0 0 0 1].
      * apply (says_index _ "index" "CREATE UNIQUE INDEX i ON users (id)"); [left; reflexivity|reflexivity|apply (creates_full "INDEX" "CREATE" 0 "UNIQUE " "INDEX" "i ON users (id)"); reflexivity|solve_annotation 1 0 0 0 1].
      * apply (says_nothing _ 0).
      * apply (says_constraint _ "constraints"); [right; reflexivity|reflexivity|solve_annotation 0 0 0 0 2].
  - apply (node_struct cfg0 look_simple plain_node "Item" [mkField ["ID"] (Some "`pgddl:""INT""`") ""] [Some ("ID", "INT", false)] [[NOption "WITH (x)"]; [NRemark]]); [reflexivity|discriminate|reflexivity| |].
    + constructor; [|constructor]. eapply told_field; [reflexivity|solve_tag "pgddl:""INT"""|apply not_void; reflexivity|split; [discriminate|intros [H|H]; discriminate]].
    + constructor; [|constructor; [|constructor]]; unfold group_says; cbn [map cl_text]; (constructor; [|constructor]).
      * apply (says_option _ "options"); [right; reflexivity|reflexivity|solve_annotation 1 0 0 0 1].
      * apply (says_remark _ 1 "Nothing" " to see: here"); [reflexivity|reflexivity|reflexivity|right; exists 0, "t"%char, "o see: here"; split; [reflexivity|split; [reflexivity|discriminate]]|reflexivity].
Qed.
(** By the theorem: all four dialects generate these three statements. *)
Example C49_example : forall dialect p, printer_for dialect p -> exists out,
  generate cfg0 look_simple (fun s => s) sort_small dialect "go" (OneFile "a.go" (Some [user_node; plain_node])) = Ok (print_ddl p (fun s => s) out) /\ List.length out = 3.
Proof.
  intros dialect p P. edestruct C49_generate as (out & E & B); [| |exact P|exact C49_example_says| |exists out; split; [exact E|]].
  - reflexivity.
  - exact sort_small_sorts.
  - discriminate.
  - apply Permutation_length in B. rewrite map_length in B. exact B.
Qed.
Example C49_tree_example : exists out,
  generate cfg0 look_simple (fun s => s) sort_small "mysql" "go" (Tree [("a.txt", None); ("a_test.go", None); ("b.go", Some [user_node; plain_node])]) = Ok (print_ddl MyPrinter (fun s => s) out) /\ List.length out = 3.
Proof.
  edestruct (C49_generate_tree cfg0 look_simple (fun s => s) sort_small "mysql" MyPrinter [("a.txt", None); ("a_test.go", None); ("b.go", Some [user_node; plain_node])]) as (outs & E & B);
    [reflexivity|exact sort_small_sorts|right; right; left; reflexivity| |exists (List.concat outs); split; [exact E|]].
  - apply tree_other; [intro H; apply go_source_iff in H; discriminate|]. apply tree_other; [intro H; apply go_source_iff in H; discriminate|].
    apply tree_file; [apply go_source_iff; reflexivity|exact C49_example_says|constructor].
  - inversion B as [|out l outs' ls P B']; subst. inversion B'; subst. cbn [List.concat]. rewrite app_nil_r. apply Permutation_length in P. rewrite map_length in P. exact P.
Qed.

(** What lies outside.  Of a field declaration with several names only the first
    becomes a column; *)
Definition one_struct (fields : list field) (lines : list string) : cnode := mkNode [mkType "T" (Some fields)] [map (fun x => mkLine x 1) lines].
Definition columns_read (l : list gstmt) : list (list string) := map (fun s => match s with GTable t => map gc_name (g_columns t) | GIndex _ => [] end) l.
Theorem C49_several_names_refuted : exists f, f_names f = ["A"; "B"] /\
  exists out, parse_file cfg0 look_simple (fun s => s) sort_small "a.go" (Some [one_struct [f] ["// pgddl: table: t"]]) = Ok (Some out) /\ columns_read out = [["A"]].
Proof. exists (mkField ["A"; "B"] (Some "`pgddl:""INT""`") ""). split; [reflexivity|]. eexists. split; vm_compute; reflexivity. Qed.
Print Assumptions C49_several_names_refuted.
(** of a group of type declarations only the last struct becomes a table; *)
Theorem C49_type_group_refuted : exists a b lines out,
  ts_name a <> ts_name b /\ ts_fields a <> None
  /\ parse_file cfg0 look_simple (fun s => s) sort_small "a.go" (Some [mkNode [a; b] [lines]]) = Ok (Some out) /\ columns_read out = [["B"]].
Proof.
  exists (mkType "X" (Some [mkField ["A"] (Some "`pgddl:""INT""`") ""])), (mkType "Y" (Some [mkField ["B"] (Some "`pgddl:""INT""`") ""])), [mkLine "// pgddl: table: t" 1].
  eexists. split; [discriminate|]. split; [discriminate|]. split; vm_compute; reflexivity.
Qed.
Print Assumptions C49_type_group_refuted.
(** and the annotation of a block comment takes the end of the comment with it. *)
Theorem C49_block_comment_refuted : exists line,
  line = "/* pgddl: table: users */" /\
  exists t, parse_file cfg0 look_simple (fun s => s) sort_small "a.go" (Some [one_struct [mkField ["A"] (Some "`pgddl:""INT""`") ""] [line]]) = Ok (Some [GTable t])
    /\ g_create t = "CREATE TABLE users */".
Proof. eexists. split; [reflexivity|]. eexists. split; vm_compute; reflexivity. Qed.
Print Assumptions C49_block_comment_refuted.

(** * C50: only annotations ask for statements *)

(** Lines that do not begin with a word and a colon change nothing: whatever remarks
    are added to or taken from the comment groups of a struct, the same statements
    are generated. *)
Definition asks (n : note) : bool := match n with NRemark => false | _ => true end.
Theorem C50_remarks_partial : forall cfg look short file types g g' notes notes' name fields cols, good_tag (ddl_tag cfg) = true ->
  types = [mkType name (Some fields)] -> all_of black name = true -> Forall2 (told cfg look) fields cols ->
  group_says (ddl_tag cfg) g notes -> group_says (ddl_tag cfg) g' notes' -> filter asks notes = filter asks notes' ->
  exists out out', read_sources cfg look short file (extract_sources (ddl_tag cfg) [mkNode types [g]]) = Ok out
    /\ read_sources cfg look short file (extract_sources (ddl_tag cfg) [mkNode types [g']]) = Ok out' /\ map bare out = map bare out'.
Proof.
  intros cfg look short file types g g' notes notes' name fields cols T -> Hb F G G' N.
  assert (forall g notes, group_says (ddl_tag cfg) g notes -> exists out, read_sources cfg look short file (extract_sources (ddl_tag cfg) [mkNode [mkType name (Some fields)] [g]]) = Ok out /\ map bare out = told_group name (kept cols) notes) as K.
  { intros g0 n0 G0. destruct (group_told cfg look short file [mkType name (Some fields)] g0 n0 name cols T G0) as (outs & F' & E).
    { left. exists fields. repeat split; assumption. }
    exists (List.concat outs). split; [|exact E]. apply read_sources_Forall2. exists outs. split; [|reflexivity].
    unfold extract_sources. cbn [flat_map sources_of_node n_types n_groups]. unfold sources_of_node. cbn [flat_map n_types n_groups]. rewrite !app_nil_r. exact F'. }
  destruct (K g notes G) as (out & E & B). destruct (K g' notes' G') as (out' & E' & B'). exists out, out'. repeat split; try assumption. rewrite B, B'.
  assert (forall l, told_group name (kept cols) l = told_group name (kept cols) (filter asks l)) as R.
  { intro l. unfold told_group, table_of, indexes_of.
    assert (annotated l = annotated (filter asks l) /\ index_notes l = index_notes (filter asks l) /\ table_notes l = table_notes (filter asks l)
            /\ constraint_notes l = constraint_notes (filter asks l) /\ option_notes l = option_notes (filter asks l)) as (R1 & R2 & R3 & R4 & R5).
    { unfold annotated, index_notes, table_notes, constraint_notes, option_notes.
      induction l as [|n l IH]; [repeat split; reflexivity|]. destruct IH as (I1 & I2 & I3 & I4 & I5). destruct n; cbn [filter asks existsb flat_map app orb]; rewrite ?I1, ?I2, ?I3, ?I4, ?I5; repeat split; reflexivity. }
    rewrite R1, R2, R3, R4, R5. reflexivity. }
  rewrite (R notes), (R notes'), N. reflexivity.
Qed.
Print Assumptions C50_remarks_partial.

(** But any word in front of the colon will do, not only the tag: *)
Theorem C50_any_word_refuted : exists lines out,
  lines = ["// pgddl: table: users"; "// See: index: below"; "// TODO: constraint names"]
  /\ parse_file cfg0 look_simple (fun s => s) sort_small "a.go" (Some [one_struct [mkField ["A"] (Some "`pgddl:""INT""`") ""] lines]) = Ok (Some out)
  /\ map bare out = [GIndex (mkGIndex "" 0 [] "CREATE INDEX below");
                     GTable (mkGTable "" 0 [] "CREATE TABLE users" [mkGColumn [] "A" "INT"] [mkGText [] "names"] [] [])].
Proof. do 2 eexists. split; [reflexivity|]. split; vm_compute; reflexivity. Qed.
Print Assumptions C50_any_word_refuted.
(** and the text of a unique index without CREATE is taken for a name. *)
Theorem C50_unique_index_refuted : exists out,
  parse_file cfg0 look_simple (fun s => s) sort_small "a.go" (Some [one_struct [] ["// pgddl: index: UNIQUE INDEX i ON t (a)"]]) = Ok (Some out)
  /\ map bare out = [GIndex (mkGIndex "" 0 [] "CREATE INDEX UNIQUE INDEX i ON t (a)")].
Proof. eexists. split; vm_compute; reflexivity. Qed.
Print Assumptions C50_unique_index_refuted.
Example C50_remarks_example :
  exists out, read_sources cfg0 look_simple (fun s => s) "a.go" (extract_sources "pgddl" [one_struct [] ["// pgddl: index: i ON t (a)"; "// Beware of this"]]) = Ok out
  /\ map bare out = [GIndex (mkGIndex "" 0 [] "CREATE INDEX i ON t (a)")].
Proof. eexists. split; vm_compute; reflexivity. Qed.

(** * C51: the statements of a file are in the order of its lines *)

Theorem C51_line_order : forall cfg look short srt file nodes out, sorts srt -> parse_file cfg look short srt file (Some nodes) = Ok (Some out) ->
  Forall (fun s => (stmt_line s < 1000000000)%N) out -> StronglySorted (fun a b => (stmt_line a <= stmt_line b)%N) out.
Proof.
  intros cfg look short srt file nodes out S H B. cbn [parse_file] in H.
  destruct (extract_sources (ddl_tag cfg) nodes) as [|r rs] eqn:X; [discriminate|]. apply bind_Ok in H. destruct H as (l & E & H). injection H as <-.
  apply (sorted_lines _ file); [|apply S]. rewrite Forall_forall in *. intros s I. split; [|apply B; exact I].
  apply (Permutation_in _ (proj1 (S l))) in I. rewrite <- X in E. apply read_sources_Forall2 in E. destruct E as (outs & F & ->).
  apply in_concat in I. destruct I as (o & Io & I).
  assert (exists r, In r (extract_sources (ddl_tag cfg) nodes) /\ read_source cfg look short file r = Ok o) as (r' & Ir & Er).
  { clear - F Io. induction F as [|a b l l' Hab F IH]; [contradiction|]. destruct Io as [<-|Io]; [exists a; split; [left; reflexivity|exact Hab]|].
    destruct (IH Io) as (r & Ir & Er). exists r. split; [right; exact Ir|exact Er]. }
  destruct (extract_good _ _ _ Ir) as (Gr & _). pose proof (read_source_from _ _ _ _ _ _ Gr Er) as P. rewrite Forall_forall in P. apply (P s I).
Qed.
Print Assumptions C51_line_order.
(** Lines 9 and 10: as texts they would be in the other order. *)
Example C51_example : exists a b,
  parse_file cfg0 look_simple (fun s => s) sort_small "a.go" (Some [mkNode [] [[mkLine "// pgddl: index: i ON t (a)" 10]]; mkNode [] [[mkLine "// pgddl: index: j ON t (b)" 9]]]) = Ok (Some [a; b])
  /\ stmt_line a = 9%N /\ stmt_line b = 10%N /\ String.ltb (itoa 10) (itoa 9) = true.
Proof. do 2 eexists. split; [vm_compute; reflexivity|]. repeat split; reflexivity. Qed.
(** From a thousand million lines on the texts are compared. *)
Theorem C51_huge_lines_refuted : exists out,
  parse_file cfg0 look_simple (fun s => s) sort_small "a.go" (Some [mkNode [] [[mkLine "// pgddl: index: i ON t (a)" 1000000000]]; mkNode [] [[mkLine "// pgddl: index: j ON t (b)" 999999999]]]) = Ok (Some out)
  /\ map stmt_line out = [1000000000; 999999999]%N.
Proof. eexists. split; vm_compute; reflexivity. Qed.
Print Assumptions C51_huge_lines_refuted.
