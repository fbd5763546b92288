(** Properties of what the show command prints: C54. *)
From Coq Require Import Lia.
From Verif Require Import GoStr Token Lexer Ast Parser Diff LexSpec Printable Written PrintLex PrintStmt WrittenFacts.
From Verif Require Import Apply GenRead Show ShowRead ShowReadFacts PropsDiff PropsApply PropsWritten.

(** * C54: a shown Spanner database is read as the statements it consists of *)

(** [consists] (ShowRead.v) says, without reference to the printing of the show command, which
    statements make up a database.  Missing for the full property: what [plain_table] leaves out
    and the statements outside of [written_ok], see the refutations below. *)
Theorem C54_shown_database_is_read_partial : forall srt db wss, Forall2 consists db wss -> (forall t, In t db -> plain_table t) ->
  forallb (written_ok Sp) (List.concat wss) = true ->
  parse Sp srt (show_spanner db) = Ok (map (meant Sp) (List.concat wss)).
Proof.
  intros srt db wss C P H. apply written_parse; [|exact H|apply TT_lex, FF_TT, shown_text; assumption].
  intros w _. destruct w; exact I.
Qed.
Print Assumptions C54_shown_database_is_read_partial.

(** What is read for a column of the database. *)
Theorem C54_columns_as_stored : forall t c w, column_says t c w ->
  c_name (column_meant w) = plain_name (sc_name c)
  /\ alike Sp (sc_type c) (datatype_string Sp (c_type (column_meant w)))
  /\ c_notnull (column_meant w) = negb (sc_nullable c)
  /\ match sc_default c with
     | None => c_default (column_meant w) = None
     | Some x => exists v, c_default (column_meant w) = Some (Some v) /\ alike Sp ("(" ++ x ++ ")") (idents_string Sp v)
     end
  /\ (c_options (column_meant w) = None <-> options_of t c = []).
Proof.
  intros t c [n ty ks keys l] (N & A & (ds & D & K) & Ki & O). cbn [wc_name wc_type wc_clauses wc_keys wc_late] in *. subst n ks keys.
  assert (L : (match l with LOptions g => Some g | _ => None end) = None <-> options_of t c = []).
  { destruct (options_of t c) as [|o r]; [cbn in O; subst l; split; reflexivity|]. destruct O as (v & -> & _). split; discriminate. }
  destruct (sc_default c) as [x|]; [destruct D as (v & -> & V)|cbn in D; subst ds]; destruct (sc_nullable c); cbn;
    (split; [reflexivity|]); (split; [exact A|]); (split; [reflexivity|]); (split; [|exact L]); try reflexivity; exists v; split; trivial.
Qed.
Print Assumptions C54_columns_as_stored.

(** A file that means the statements the database consists of does not differ from it. *)
Theorem C54_no_difference_partial : forall w a b db wss l text, w_load w = true -> dialect_of (w_dialect w) = Some Sp ->
  w_resolve w a = Some (show_spanner db) -> w_resolve w b = Some text ->
  Forall2 consists db wss -> (forall t, In t db -> plain_table t) -> forallb (written_ok Sp) (List.concat wss) = true ->
  forallb (written_ok Sp) l = true -> lex Sp text = lex Sp (concat_str (map (written_string Sp) l)) -> map (meant Sp) l = map (meant Sp) (List.concat wss) ->
  diff_command w [a; b] = ([], Done) /\ apply_command w [a; b] = ([EPrint ("no difference" ++ nl)], Done).
Proof.
  intros w a b db wss l text L D Ra Rb C P H Hl E M.
  apply (C28_no_difference_no_effect w a b Sp _ _ (map (meant Sp) (List.concat wss)) (map (meant Sp) l) L D Ra Rb).
  - apply C54_shown_database_is_read_partial; assumption.
  - apply C53_written_schema_is_read_partial; [exact Hl|exact E|]. intros t _. exact I.
  - rewrite M. apply C11_schema_equals_itself.
Qed.
Print Assumptions C54_no_difference_partial.

Local Notation asc n := (mkPart n false).
Definition shown_table : s_table :=
  mkSTable "T" [mkSColumn "Id" None false "STRING(36)"; mkSColumn "N" (Some "1 + 2") false "INT64"; mkSColumn "At" None true "TIMESTAMP"]
    [mkSOption "At" "allow_commit_timestamp" "TRUE"] [asc "Id"; asc "N"] "OLDER_THAN(At, INTERVAL 30 DAY)" [mkSIndex "I" true [asc "N"; asc "At"] []] None [].
Definition names (l : list string) : list ident := map plain_name l.
Definition shown_written : list written :=
  [WTable (mkWT false (bare_name "T")
     [ICol (mkWC (plain_name "Id") (mkDT "STRING" "STRING" (Some (names ["36"]))) [KNotNull] [] LNone);
      ICol (mkWC (plain_name "N") (mkDT "INT64" "INT64" None) [KDefault (names ["("; "1"; "+"; "2"; ")"]); KNotNull] [] LNone);
      ICol (mkWC (plain_name "At") (mkDT "TIMESTAMP" "TIMESTAMP" None) [] [] (LOptions (names ["("; "allow_commit_timestamp"; "="; "TRUE"; ")"])))]
     [mkOpt "PRIMARY KEY" (Some (names ["("; "Id"; ","; "N"; ")"]))]
     (Some (mkOpt "ROW DELETION POLICY" (Some (names ["("; "OLDER_THAN"; "("; "At"; ","; "INTERVAL"; "30"; "DAY"; ")"; ")"])))));
   WIndex (mkCX "" true false (bare_name "I") (bare_name "T") [] None [mkCI (plain_name "N") None; mkCI (plain_name "At") None] None)].
Lemma alike_check : forall a b, no_nul a = true -> outside Sp a -> lex Sp a = lex Sp b -> alike Sp a b.
Proof. intros a b H1 H2 H3. split; [exact H1|]. split; [exact H2|exact H3]. Qed.
Ltac alike_by_computation := apply alike_check; [reflexivity|reflexivity|vm_compute; reflexivity].
Example C54_example_consists : consists shown_table shown_written.
Proof.
  apply (consists_of shown_table _ [_]).
  - split; [reflexivity|]. split; [reflexivity|]. split; [|split; [reflexivity|]].
    + eexists [_; _; _], []. split; [reflexivity|]. split; [|constructor]. constructor; [|constructor; [|constructor; [|constructor]]];
        (split; [reflexivity|]; split; [alike_by_computation|]; split; [|split; [reflexivity|]]).
      * exists []. split; reflexivity.
      * reflexivity.
      * exists [KDefault (names ["("; "1"; "+"; "2"; ")"])]. split; [|reflexivity]. exists (names ["("; "1"; "+"; "2"; ")"]). split; [reflexivity|]. alike_by_computation.
      * reflexivity.
      * exists []. split; reflexivity.
      * exists (names ["("; "allow_commit_timestamp"; "="; "TRUE"; ")"]). split; [reflexivity|]. alike_by_computation.
    + exists (names ["("; "OLDER_THAN"; "("; "At"; ","; "INTERVAL"; "30"; "DAY"; ")"; ")"]). split; [reflexivity|]. alike_by_computation.
  - constructor; [|constructor]. split; reflexivity.
Qed.
Example C54_example_plain : plain_table shown_table.
Proof.
  constructor; try reflexivity; try discriminate; cbn.
  - intros p [<-|[<-|[]]]; reflexivity.
  - intros x [<-|[<-|[]]]; [left|right; left]; reflexivity.
  - intros i [<-|[]]. split; [|discriminate]. intros p [<-|[<-|[]]]; reflexivity.
Qed.
Example C54_example : forallb (written_ok Sp) shown_written = true
  /\ parse Sp id_sort (show_spanner [shown_table]) = Ok (map (meant Sp) shown_written)
  /\ show_spanner [shown_table] = ("CREATE TABLE T (" ++ nl ++ "    Id STRING(36) NOT NULL," ++ nl ++ "    N INT64 DEFAULT (1 + 2) NOT NULL," ++ nl
       ++ "    At TIMESTAMP OPTIONS (allow_commit_timestamp = TRUE)" ++ nl ++ ") PRIMARY KEY (Id, N)," ++ nl ++ "ROW DELETION POLICY (OLDER_THAN(At, INTERVAL 30 DAY));" ++ nl
       ++ "CREATE UNIQUE INDEX I ON T (N, At);" ++ nl)%string.
Proof. split; [vm_compute; reflexivity|]. split; [vm_compute; reflexivity|reflexivity]. Qed.

(** ** What is not shown *)

(** A table the show command shows as another one. *)
Definition shown_as_other (t : s_table) (ws : list written) : Prop :=
  consists t ws /\ forallb (written_ok Sp) ws = true
  /\ (exists l, parse Sp id_sort (show_spanner [t]) = Ok l /\ l <> map (meant Sp) ws).
Definition int_column (n : string) : s_column := mkSColumn n None false "INT64".
Definition int_item (n : string) : item := ICol (mkWC (plain_name n) (mkDT "INT64" "INT64" None) [KNotNull] [] LNone).
Lemma int_says : forall t n, st_options t = [] -> column_says t (int_column n) (mkWC (plain_name n) (mkDT "INT64" "INT64" None) [KNotNull] [] LNone).
Proof.
  intros t n O. split; [reflexivity|]. split; [alike_by_computation|]. split; [exists []; split; reflexivity|]. split; [reflexivity|].
  unfold options_of. rewrite O. reflexivity.
Qed.

(** The order of a key column. *)
Theorem C54_descending_key_refuted : exists t ws, shown_as_other t ws /\ st_key t = [mkPart "A" true] /\ st_further t = [] /\ st_parent t = None /\ st_indexes t = [].
Proof.
  exists (mkSTable "T" [int_column "A"] [] [mkPart "A" true] "" [] None []).
  exists [WTable (mkWT false (bare_name "T") [int_item "A"] [key_says [mkPart "A" true]] None)]. split; [|repeat split]. split; [|split; [vm_compute; reflexivity|]].
  - apply (consists_of _ _ []); [|constructor]. split; [reflexivity|]. split; [reflexivity|]. split; [|split; reflexivity].
    eexists [_], []. split; [reflexivity|]. split; [|constructor]. constructor; [apply int_says; reflexivity|constructor].
  - eexists. split; [vm_compute; reflexivity|]. vm_compute. discriminate.
Qed.
Print Assumptions C54_descending_key_refuted.
(** The order of the columns of an index. *)
Theorem C54_descending_index_refuted : exists t ws, shown_as_other t ws /\ st_indexes t = [mkSIndex "I" false [mkPart "B" true] []] /\ st_further t = [] /\ st_parent t = None.
Proof.
  exists (mkSTable "T" [int_column "A"; int_column "B"] [] [mkPart "A" false] "" [mkSIndex "I" false [mkPart "B" true] []] None []).
  exists [WTable (mkWT false (bare_name "T") [int_item "A"; int_item "B"] [key_says [mkPart "A" false]] None);
          WIndex (mkCX "" false false (bare_name "I") (bare_name "T") [] None [mkCI (plain_name "B") (Some true)] None)].
  split; [|repeat split]. split; [|split; [vm_compute; reflexivity|]].
  - apply (consists_of _ _ [_]); [|repeat (constructor; [split; reflexivity|]); constructor]. split; [reflexivity|]. split; [reflexivity|]. split; [|split; reflexivity].
    eexists [_; _], []. split; [reflexivity|]. split; [|constructor]. repeat (constructor; [apply int_says; reflexivity|]). constructor.
  - eexists. split; [vm_compute; reflexivity|]. vm_compute. discriminate.
Qed.
Print Assumptions C54_descending_index_refuted.
(** The parent table. *)
Theorem C54_parent_refuted : exists t ws, shown_as_other t ws /\ st_parent t = Some "P" /\ st_further t = [] /\ st_indexes t = [] /\ ascending (st_key t).
Proof.
  exists (mkSTable "T" [int_column "A"] [] [mkPart "A" false] "" [] (Some "P") []).
  exists [WTable (mkWT false (bare_name "T") [int_item "A"] [key_says [mkPart "A" false]; mkOpt "INTERLEAVE IN PARENT" (Some [plain_name "P"])] None)].
  split; [|repeat split; intros p [<-|[]]; reflexivity]. split; [|split; [vm_compute; reflexivity|]].
  - apply (consists_of _ _ []); [|constructor]. split; [reflexivity|]. split; [reflexivity|]. split; [|split; reflexivity].
    eexists [_], []. split; [reflexivity|]. split; [|constructor]. constructor; [apply int_says; reflexivity|constructor].
  - eexists. split; [vm_compute; reflexivity|]. vm_compute. discriminate.
Qed.
Print Assumptions C54_parent_refuted.
(** Foreign keys and CHECK constraints. *)
Theorem C54_constraints_refuted : exists t ws, shown_as_other t ws /\ st_further t = ["CONSTRAINT c CHECK (A > 0)"] /\ st_parent t = None /\ st_indexes t = [] /\ ascending (st_key t).
Proof.
  exists (mkSTable "T" [int_column "A"] [] [mkPart "A" false] "" [] None ["CONSTRAINT c CHECK (A > 0)"]).
  exists [WTable (mkWT false (bare_name "T") [int_item "A"; ICon (CCheck (Some (plain_name "c")) (Some (names ["("; "A"; ">"; "0"; ")"])))] [key_says [mkPart "A" false]] None)].
  split; [|repeat split; intros p [<-|[]]; reflexivity]. split; [|split; [vm_compute; reflexivity|]].
  - apply (consists_of _ _ []); [|constructor]. split; [reflexivity|]. split; [reflexivity|]. split; [|split; reflexivity].
    eexists [_], [_]. split; [reflexivity|]. split; [constructor; [apply int_says; reflexivity|constructor]|].
    constructor; [|constructor]. split; [reflexivity|]. alike_by_computation.
  - eexists. split; [vm_compute; reflexivity|]. vm_compute. discriminate.
Qed.
Print Assumptions C54_constraints_refuted.
(** Two indexes (see C34). *)
Theorem C54_two_indexes_refuted : exists t ws, shown_as_other t ws /\ List.length (st_indexes t) = 2 /\ st_further t = [] /\ st_parent t = None /\ ascending (st_key t)
  /\ (forall i, In i (st_indexes t) -> ascending (si_columns i)).
Proof.
  exists (mkSTable "T" [int_column "A"; int_column "B"] [] [mkPart "A" false] "" [mkSIndex "I" false [mkPart "B" false] []; mkSIndex "J" true [mkPart "B" false] []] None []).
  exists [WTable (mkWT false (bare_name "T") [int_item "A"; int_item "B"] [key_says [mkPart "A" false]] None);
          WIndex (mkCX "" false false (bare_name "I") (bare_name "T") [] None [mkCI (plain_name "B") None] None);
          WIndex (mkCX "" true false (bare_name "J") (bare_name "T") [] None [mkCI (plain_name "B") None] None)].
  split; [|split; [reflexivity|]; split; [reflexivity|]; split; [reflexivity|]; split; [intros p [<-|[]]; reflexivity|intros i [<-|[<-|[]]] p [<-|[]]; reflexivity]].
  split; [|split; [vm_compute; reflexivity|]].
  - apply (consists_of _ _ [_; _]); [|repeat (constructor; [split; reflexivity|]); constructor]. split; [reflexivity|]. split; [reflexivity|]. split; [|split; reflexivity].
    eexists [_; _], []. split; [reflexivity|]. split; [|constructor]. repeat (constructor; [apply int_says; reflexivity|]). constructor.
  - eexists. split; [vm_compute; reflexivity|]. vm_compute. discriminate.
Qed.
Print Assumptions C54_two_indexes_refuted.

(** ** What is shown and not read *)

(** A column with a default value and options that may be NULL; columns of type DATE, BYTES, FLOAT32
    and ARRAY; a column whose name is a word of the lexer, for names are not quoted. *)
Theorem C54_not_read_refuted : forall c o, In (c, o)
    [(mkSColumn "B" (Some "1") true "INT64", [mkSOption "B" "x" "1"]); (mkSColumn "B" None true "DATE", []); (mkSColumn "B" None true "BYTES(16)", []);
     (mkSColumn "B" None true "FLOAT32", []); (mkSColumn "B" None true "ARRAY<INT64>", []); (mkSColumn "Index" None true "INT64", [])] ->
  exists t, plain_table t /\ In c (st_columns t) /\ st_options t = o /\ parse Sp id_sort (show_spanner [t]) = Err.
Proof.
  intros c o I. exists (mkSTable "T" [int_column "A"; c] o [asc "A"] "" [] None []). split; [|split; [right; left; reflexivity|split; [reflexivity|]]].
  - constructor; try reflexivity; try discriminate; cbn.
    + intros p [<-|[]]; reflexivity.
    + intros x [<-|[]]. left. reflexivity.
    + lia.
    + intros i [].
  - cbn [In] in I. repeat (destruct I as [I|I]; [injection I as <- <-; vm_compute; reflexivity|]). destruct I.
Qed.
Print Assumptions C54_not_read_refuted.
