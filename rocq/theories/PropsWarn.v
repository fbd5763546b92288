(** C80: what is guessed or left out on the way from a struct to its table is said in the
    generated text. *)
From Coq Require Import Permutation Sorted Lia.
From Verif Require Import GoStr Token Lexer Ast Parser Lines IndexText LinesFacts Generate GenSpec GenFacts GenOrder GenTold GenToldFacts PropsTold WarnSpec WarnFacts.

(** Every table made from a file belongs to a struct of the file and a comment group that
    stand together; it says which fields are left out by their tags, which columns are named
    after their fields, whose remark about the primary key is ignored, and that it is named
    after the struct if it is; if there is nothing to say, it carries no comment that the
    author did not write. *)
Theorem C80_tables_explain : forall cfg look short srt file nodes out t, good_tag (ddl_tag cfg) = true -> sorts srt ->
  parse_file cfg look short srt file (Some nodes) = Ok (Some out) -> In (GTable t) out ->
  exists n ty fields g, In n nodes /\ In g (n_groups n) /\ In ty (map ts_name (n_types n)) /\ In (Some fields) (map ts_fields (n_types n))
    /\ explains cfg look short file ty fields g t.
Proof.
  intros cfg look short srt file nodes out t GT S H I. cbn [parse_file] in H.
  destruct (extract_sources (ddl_tag cfg) nodes) as [|r0 rs] eqn:X; [discriminate|]. rewrite <- X in H.
  apply bind_Ok in H. destruct H as (l & H & E). injection E as <-.
  apply (Permutation_in _ (proj1 (S l))) in I. apply read_sources_Forall2 in H. destruct H as (outs & F & ->).
  apply in_concat in I. destruct I as (o & Io & It).
  assert (exists r, In r (extract_sources (ddl_tag cfg) nodes) /\ read_source cfg look short file r = Ok o) as (r & Ir & R).
  { clear - F Io. induction F as [|a b la lb P F IH]; [contradiction|]. destruct Io as [<-|Io]; [exists a; split; [left; reflexivity|exact P]|]. destruct (IH Io) as (r & Ir & R). exists r. split; [right; exact Ir|exact R]. }
  unfold extract_sources in Ir. apply in_flat_map in Ir. destruct Ir as (n & In1 & Ir). unfold sources_of_node in Ir. apply in_flat_map in Ir. destruct Ir as (g & Ig & Ir).
  unfold sources_of_group in Ir. destruct (find _ g) as [l|] eqn:Fd; [|contradiction]. destruct Ir as [<-|[]]. apply find_some in Fd. destruct Fd as [Fd _].
  assert (g <> []) as NE. { intros ->. contradiction. }
  destruct (source_explained cfg look short file (mkSource (cl_line l) (last_type (n_types n)) (last_struct (n_types n)) g) o t GT NE (struct_type (n_types n)) R It) as (ty & fields & Et & Es & EX). cbn in Et, Es, EX.
  exists n, ty, fields, g. split; [exact In1|]. split; [exact Ig|]. split; [apply last_type_in; exact Et|]. split; [apply last_struct_in; exact Es|exact EX].
Qed.
Print Assumptions C80_tables_explain.

(** What a table or a column of it says is printed, as a comment of its own. *)
Theorem C80_printed : forall d short l t c, In (GTable t) l -> c <> "" ->
  In c (g_comments t) \/ (g_create t <> "" /\ exists col, In col (g_columns t) /\ In c (gc_comments col)) ->
  contains ("-- " ++ c ++ nl) (print_ddl d short l) = true.
Proof.
  intros d short l t c I N H. apply contains_in. eapply part_trans; [exact (stmt_part d short l (GTable t) I)|]. cbn [print_stmt]. destruct H as [H|(Z & col & Ic & H)].
  - eapply part_trans; [apply head_part|]. apply comments_part; assumption.
  - eapply part_trans; [apply (table_part d short indent4 t col Z Ic)|]. apply comments_part; assumption.
Qed.
Print Assumptions C80_printed.

(** So in the generated text: the remarks of all tables are there. *)
Theorem C80_generated : forall cfg look short srt dialect p file nodes text, good_tag (ddl_tag cfg) = true -> sorts srt -> printer_for dialect p ->
  generate cfg look short srt dialect "go" (OneFile file (Some nodes)) = Ok text ->
  exists out, text = print_ddl p short out /\ forall t, In (GTable t) out ->
    (exists n ty fields g, In n nodes /\ In g (n_groups n) /\ In ty (map ts_name (n_types n)) /\ In (Some fields) (map ts_fields (n_types n)) /\ explains cfg look short file ty fields g t)
    /\ forall c, c <> "" -> In c (g_comments t) \/ (exists col, In col (g_columns t) /\ In c (gc_comments col)) -> contains ("-- " ++ c ++ nl) text = true.
Proof.
  intros cfg look short srt dialect p file nodes text GT S P H. unfold generate in H. cbn [String.eqb Ascii.eqb Bool.eqb parse_input] in H.
  apply bind_Ok in H. destruct H as (out & Ho & H). apply bind_Ok in Ho. destruct Ho as ([o|] & Ho & E); [|discriminate]. injection E as ->.
  assert (printer_of dialect = Some p) as Pr. { destruct P as [P|[P|[P|[P|[]]]]]; injection P as <- <-; reflexivity. }
  rewrite Pr in H. injection H as <-. exists out. split; [reflexivity|]. intros t I.
  destruct (C80_tables_explain _ _ _ _ _ _ _ _ GT S Ho I) as (n & ty & fields & g & H1 & H2 & H3 & H4 & EX). split; [exists n, ty, fields, g; tauto|].
  intros c N J. eapply C80_printed; [exact I|exact N|]. destruct J as [J|J]; [left; exact J|right; split; [apply EX|exact J]].
Qed.
Print Assumptions C80_generated.

(** The remarks about a table that leaves out a field, names a column after its field and
    is named after its struct; the author's own comments come first. *)
Definition remarks_node : cnode :=
  mkNode [mkType "Item" (Some [mkField ["ID"] (Some "`pgddl:""INT"" pk:""yes""`") ""; mkField ["Secret"] (Some "`db:""-"" pgddl:""TEXT""`") ""])]
    [[mkLine "// pgddl: options: WITH (x)" 20]].
Example C80_example :
  generate cfg0 look_simple (fun s => s) sort_small "postgres" "go" (OneFile "a.go" (Some [remarks_node]))
  = Ok (unlines_example
      ["-- Code generated by ddlctl. DO NOT EDIT."; "--"; "";
       "-- source: a.go:20";
       "-- pgddl: options: WITH (x)";
       "-- WARN: the comment (a.go:20) does not have a key for table (pgddl: table: CREATE TABLE <table>), so the struct name ""Item"" is used as the table name.";
       "-- NOTE: the ""Item"" struct's ""Secret"" field has a tag for column name (`db:""-""`), so the field is ignored.";
       "CREATE TABLE Item (";
       "    -- WARN: the ""Item"" struct's ""ID"" field does not have a tag for column name (`db:""<ColumnName>""`), so the field name ""ID"" is used as the column name.";
       "    -- WARN: the field ""ID"" does not have valid primary key tag (`pk:""true""`), so the column is not used as primary key.";
       "    ""ID"" INT"; ")"; "WITH (x);"]).
Proof. vm_compute. reflexivity. Qed.

(** What is not said.  A field whose tag names a column but gives no type is left out
    without a word. *)
Theorem C80_untyped_refuted : exists f tag text, tag_of f tag /\ called f "Note" /\ look_simple tag "db" = "remark" /\
  generate cfg0 look_simple (fun s => s) sort_small "postgres" "go"
    (OneFile "a.go" (Some [mkNode [mkType "Item" (Some [mkField ["ID"] (Some "`db:""id"" pgddl:""INT""`") ""; f])] [[mkLine "// pgddl: table: items" 20]]])) = Ok text
  /\ contains "id" text = true /\ contains "Note" text = false /\ contains "remark" text = false.
Proof.
  exists (mkField ["Note"] (Some "`db:""remark""`") ""), "db:""remark""". eexists. split; [split; reflexivity|]. split; [exists []; reflexivity|]. split; [reflexivity|].
  split; [vm_compute; reflexivity|]. repeat split; vm_compute; reflexivity.
Qed.
Print Assumptions C80_untyped_refuted.
(** An annotated struct without any typed field leaves no trace in the text: the message
    made for it ("ERROR: the comment ... does not have struct fields ...") is dropped with
    the table. *)
Theorem C80_no_columns_refuted : exists fields, fields <> [] /\
  generate cfg0 look_simple (fun s => s) sort_small "postgres" "go"
    (OneFile "a.go" (Some [mkNode [mkType "Item" (Some fields)] [[mkLine "// pgddl: table: items" 20]]]))
  = Ok (unlines_example ["-- Code generated by ddlctl. DO NOT EDIT."; "--"]).
Proof. exists [mkField ["ID"] (Some "`db:""id""`") ""]. split; [discriminate|]. vm_compute. reflexivity. Qed.
Print Assumptions C80_no_columns_refuted.
