(** Properties of what the show command prints for PostgreSQL: C55. *)
From Coq Require Import Lia.
From Verif Require Import GoStr Token Lexer Ast Parser Diff LexSpec Printable Written PrintLex PrintStmt WrittenFacts.
From Verif Require Import Apply GenRead ShowPg ShowPgRead ShowPgFacts PropsDiff PropsApply PropsWritten.

(** * C55: a shown PostgreSQL schema is read as the statements it consists of *)

(** [p_consists] (ShowPgRead.v) says, without reference to the query of the show command, which
    statements make up a schema.  Missing for the full property: what [plain_pg] leaves out and the
    statements outside of [written_ok], see the refutations below. *)
Theorem C55_shown_database_is_read_partial : forall srt schema db l tables indexes, by_name schema db l -> plain_pg db l -> p_consists l tables indexes ->
  forallb (written_ok Pg) (tables ++ indexes) = true ->
  parse Pg srt (show_postgres schema db) = Ok (map (meant Pg) (tables ++ indexes)).
Proof.
  intros srt schema db l tables indexes O P C H. apply written_parse; [|exact H|apply TT_lex, FF_TT, (shown_pg_text schema db l tables indexes); assumption].
  intros w _. destruct w; exact I.
Qed.
Print Assumptions C55_shown_database_is_read_partial.

(** What is read for a column of the database. *)
Theorem C55_columns_as_stored : forall c w, p_column_says c w ->
  c_name (column_meant w) = plain_name (pc_name c)
  /\ alike Pg (pc_type c ++ length_text (pc_length c) ++ pc_detail c) (datatype_string Pg (c_type (column_meant w)))
  /\ c_notnull (column_meant w) = negb (pc_nullable c)
  /\ match pc_default c with
     | None => c_default (column_meant w) = None
     | Some x => exists v, c_default (column_meant w) = Some (Some v) /\ alike Pg x (idents_string Pg v)
     end.
Proof.
  intros c [n ty ks keys l] (N & A & (ds & D & K) & Ki & O). cbn [wc_name wc_type wc_clauses wc_keys wc_late] in *. subst n ks keys l.
  destruct (pc_default c) as [x|]; [destruct D as (v & -> & V)|cbn in D; subst ds]; destruct (pc_nullable c); cbn;
    (split; [reflexivity|]); (split; [exact A|]); (split; [reflexivity|]); try reflexivity; exists v; split; trivial.
Qed.
Print Assumptions C55_columns_as_stored.

(** A file that means the statements the schema consists of does not differ from it. *)
Theorem C55_no_difference_partial : forall w a b schema db l tables indexes ws text, w_load w = true -> dialect_of (w_dialect w) = Some Pg ->
  w_resolve w a = Some (show_postgres schema db) -> w_resolve w b = Some text ->
  by_name schema db l -> plain_pg db l -> p_consists l tables indexes -> forallb (written_ok Pg) (tables ++ indexes) = true ->
  forallb (written_ok Pg) ws = true -> lex Pg text = lex Pg (concat_str (map (written_string Pg) ws)) -> map (meant Pg) ws = map (meant Pg) (tables ++ indexes) ->
  diff_command w [a; b] = ([], Done) /\ apply_command w [a; b] = ([EPrint ("no difference" ++ nl)], Done).
Proof.
  intros w a b schema db l tables indexes ws text L D Ra Rb O P C H Hl E M.
  apply (C28_no_difference_no_effect w a b Pg _ _ (map (meant Pg) (tables ++ indexes)) (map (meant Pg) ws) L D Ra Rb).
  - apply (C55_shown_database_is_read_partial _ _ _ l); assumption.
  - apply C53_written_schema_is_read_partial; [exact Hl|exact E|]. intros t _. exact I.
  - rewrite M. apply C11_schema_equals_itself.
Qed.
Print Assumptions C55_no_difference_partial.

(** ** An example *)

Definition names (l : list string) : list ident := map plain_name l.
Definition in_public (t : string) : objname := mkON (Some (plain_name "public")) (plain_name t).
Definition col (n t : string) : p_column := mkPColumn n t None "" true None.
Definition shown_pg : list p_table :=
  [mkPTable "public" "t" false [mkPColumn "a" "character varying" (Some "36") "" false None; mkPColumn "b" "integer" None "" true (Some "1")]
     [mkPConstraint "t_pkey" PPrimary ["a"]; mkPConstraint "t_ukey" PUnique ["b"; "a"]] [mkPIndex "i" "CREATE INDEX i ON public.t USING btree (b, a)"];
   mkPTable "other" "v" false [col "a" "integer"] [] [];
   mkPTable "public" "u" false [col "c" "text"] [] []].
Definition shown_pg_tables : list written :=
  [WTable (mkWT false (in_public "t")
     [ICol (mkWC (plain_name "a") (mkDT "character varying" "CHARACTER VARYING" (Some (names ["36"]))) [KNotNull] [] LNone);
      ICol (mkWC (plain_name "b") (mkDT "integer" "INTEGER" None) [KDefault (names ["1"])] [] LNone);
      ICon (CPrimary (Some (plain_name "t_pkey")) [mkCI (plain_name "a") None]);
      ICon (CUnique (Some (plain_name "t_ukey")) [mkCI (plain_name "b") None; mkCI (plain_name "a") None])] [] None);
   WTable (mkWT false (in_public "u") [ICol (mkWC (plain_name "c") (mkDT "text" "TEXT" None) [] [] LNone)] [] None)].
Definition shown_pg_indexes : list written :=
  [WIndex (mkCX "" false false (mkON None (plain_name "i")) (in_public "t") [plain_name "btree"] None [mkCI (plain_name "b") None; mkCI (plain_name "a") None] None)].
Lemma alike_check : forall a b, no_nul a = true -> outside Pg a -> lex Pg a = lex Pg b -> alike Pg a b.
Proof. intros a b H1 H2 H3. split; [exact H1|]. split; [exact H2|exact H3]. Qed.
Ltac alike_by_computation := apply alike_check; [reflexivity|reflexivity|vm_compute; reflexivity].
Lemma column_check : forall c w ks, wc_name w = plain_name (pc_name c) -> alike Pg (pc_type c ++ length_text (pc_length c) ++ pc_detail c) (datatype_string Pg (wc_type w)) ->
  p_default_says (pc_default c) ks -> wc_clauses w = ((if pc_nullable c then [] else [KNotNull]) ++ ks)%list -> wc_keys w = [] -> wc_late w = LNone -> p_column_says c w.
Proof. intros c w ks N A D K Ki L. split; [exact N|]. split; [exact A|]. split; [exists ks; split; assumption|]. split; assumption. Qed.
Example C55_example_consists : p_consists (filter (fun t => String.eqb (pt_schema t) "public") shown_pg) shown_pg_tables shown_pg_indexes.
Proof.
  change (filter _ _) with [hd (mkPTable "" "" false [] [] []) shown_pg; nth 2 shown_pg (mkPTable "" "" false [] [] [])]. split; [constructor; [|constructor; [|constructor]]|].
  - split; [reflexivity|]. eexists [_; _], [_; _]. split; [reflexivity|]. split.
    + constructor; [apply (column_check _ _ []); try reflexivity; alike_by_computation|]. constructor; [|constructor].
      apply (column_check _ _ [KDefault (names ["1"])]); try reflexivity; [alike_by_computation|]. exists (names ["1"]). split; [reflexivity|]. alike_by_computation.
    + constructor; [reflexivity|]. constructor; [reflexivity|]. constructor.
  - split; [reflexivity|]. eexists [_], []. split; [reflexivity|]. split; [|constructor]. constructor; [|constructor]. apply (column_check _ _ []); try reflexivity. alike_by_computation.
  - constructor; [|constructor]. eexists. split; [reflexivity|]. alike_by_computation.
Qed.
Example C55_example_plain : plain_pg shown_pg (filter (fun t => String.eqb (pt_schema t) "public") shown_pg).
Proof.
  change (filter _ _) with [hd (mkPTable "" "" false [] [] []) shown_pg; nth 2 shown_pg (mkPTable "" "" false [] [] [])]. constructor.
  - intros t [<-|[<-|[]]]; (split; [discriminate|]); intros c I; cbn in I; repeat (destruct I as [<-|I]; [reflexivity|]); destruct I.
  - intros t c [<-|[<-|[]]] I; cbn in I; repeat (destruct I as [<-|I]; [split; [reflexivity|]; split; [discriminate|]; intros []|]); destruct I.
  - intros t i t' c [<-|[<-|[]]] I [<-|[<-|[]]] J; cbn in I, J; repeat (destruct I as [<-|I]; [repeat (destruct J as [<-|J]; [discriminate|]); destruct J|]); destruct I.
Qed.
Example C55_example_order : by_name "public" shown_pg (filter (fun t => String.eqb (pt_schema t) "public") shown_pg).
Proof.
  split; [reflexivity|]. intros a x b y c E. destruct a as [|? [|? a]]; cbn in E.
  - destruct b as [|? b]; [injection E as <- <- _; reflexivity|]. injection E as _ _ E. destruct b; discriminate E.
  - injection E as _ _ E. destruct b; discriminate E.
  - injection E as _ _ E. destruct a; discriminate E.
Qed.
Example C55_example : forallb (written_ok Pg) (shown_pg_tables ++ shown_pg_indexes) = true
  /\ parse Pg id_sort (show_postgres "public" shown_pg) = Ok (map (meant Pg) (shown_pg_tables ++ shown_pg_indexes))
  /\ show_postgres "public" shown_pg = ("CREATE TABLE public.t (" ++ nl ++ "  a character varying(36) NOT NULL," ++ nl ++ "  b integer DEFAULT 1," ++ nl
       ++ "  CONSTRAINT t_pkey PRIMARY KEY (a)," ++ nl ++ "  CONSTRAINT t_ukey UNIQUE (b, a)" ++ nl ++ ");" ++ nl
       ++ "CREATE TABLE public.u (" ++ nl ++ "  c text" ++ nl ++ ");" ++ nl ++ "CREATE INDEX i ON public.t USING btree (b, a);" ++ nl)%string.
Proof. split; [vm_compute; reflexivity|]. split; [vm_compute; reflexivity|reflexivity]. Qed.

(** ** What is not shown *)

Definition one_table (cols : list p_column) (cons : list p_constraint) (indexes : list p_index) : p_table := mkPTable "public" "t" false cols cons indexes.
Definition read_shown (db : list p_table) : res ddl := parse Pg id_sort (show_postgres "public" db).
(** A table that consists of these statements, which can be read, and is shown otherwise. *)
Definition shown_as_other (t : p_table) (tables indexes : list written) : Prop :=
  p_consists [t] tables indexes /\ forallb (written_ok Pg) (tables ++ indexes) = true
  /\ read_shown [t] <> Ok (map (meant Pg) (tables ++ indexes)).
Definition int_col (n : string) : p_column := col n "integer".
Definition int_item (n : string) : item := ICol (mkWC (plain_name n) (mkDT "integer" "INTEGER" None) [] [] LNone).
Definition table_of (items : list item) : written := WTable (mkWT false (in_public "t") items [] None).
Lemma int_says : forall n, p_column_says (int_col n) (mkWC (plain_name n) (mkDT "integer" "INTEGER" None) [] [] LNone).
Proof. intro n. apply (column_check _ _ []); try reflexivity. alike_by_computation. Qed.

(** A foreign key: shown without what it refers to, and the shown text is not read. *)
Theorem C55_foreign_key_refuted : exists t tables, shown_as_other t tables [] /\ pt_constraints t = [mkPConstraint "f" (PForeign "u" ["b"] "NO ACTION" "NO ACTION") ["a"]]
  /\ pt_indexes t = [] /\ read_shown [t] = Err.
Proof.
  exists (one_table [int_col "a"] [mkPConstraint "f" (PForeign "u" ["b"] "NO ACTION" "NO ACTION") ["a"]] []).
  exists [table_of [int_item "a"; ICon (CForeign (Some (plain_name "f")) (key_columns ["a"]) (plain_name "u") (key_columns ["b"]) "")]].
  split; [|split; [reflexivity|split; [reflexivity|vm_compute; reflexivity]]]. split; [|split; [vm_compute; reflexivity|vm_compute; discriminate]].
  split; [|constructor]. constructor; [|constructor]. split; [reflexivity|]. eexists [_], [_]. split; [reflexivity|]. split; [constructor; [apply int_says|constructor]|].
  constructor; [|constructor]. reflexivity.
Qed.
Print Assumptions C55_foreign_key_refuted.
(** A CHECK constraint: whenever the file has it, the difference adds it again. *)
Theorem C55_check_refuted : exists t text x y e, pt_constraints t = [mkPConstraint "t_a_check" (PCheck "(a > 0)") []]
  /\ read_shown [t] = Ok [CreateTable x] /\ ct_constraints x = []
  /\ text = "CREATE TABLE public.t (a integer CHECK (a > 0), b integer);" /\ parse Pg id_sort text = Ok [CreateTable y] /\ ct_constraints y = [CCheck (Some (plain_name "t_a_check")) e]
  /\ diff Pg id_sort no_text (Some [CreateTable x]) (Some [CreateTable y]) = DOk [AlterTable "" (in_public "t") (AddConstraint (CCheck (Some (plain_name "t_a_check")) e) false)].
Proof.
  eexists (one_table [int_col "a"; int_col "b"] [mkPConstraint "t_a_check" (PCheck "(a > 0)") []] []), "CREATE TABLE public.t (a integer CHECK (a > 0), b integer);"%string, _, _, _.
  split; [reflexivity|]. split; [vm_compute; reflexivity|]. split; [reflexivity|]. split; [reflexivity|]. split; [vm_compute; reflexivity|]. split; [reflexivity|]. vm_compute. reflexivity.
Qed.
Print Assumptions C55_check_refuted.
(** Precision and scale of a number. *)
Theorem C55_precision_refuted : exists t tables, shown_as_other t tables [] /\ pt_columns t = [mkPColumn "a" "numeric" None "(10,2)" true None]
  /\ pt_constraints t = [] /\ pt_indexes t = [] /\ (exists l, read_shown [t] = Ok l).
Proof.
  exists (one_table [mkPColumn "a" "numeric" None "(10,2)" true None] [] []).
  exists [table_of [ICol (mkWC (plain_name "a") (mkDT "numeric" "NUMERIC" (Some (names ["10"; ","; "2"]))) [] [] LNone)]].
  split; [|split; [reflexivity|split; [reflexivity|split; [reflexivity|eexists; vm_compute; reflexivity]]]]. split; [|split; [vm_compute; reflexivity|vm_compute; discriminate]].
  split; [|constructor]. constructor; [|constructor]. split; [reflexivity|]. eexists [_], []. split; [reflexivity|]. split; [|constructor].
  constructor; [|constructor]. apply (column_check _ _ []); try reflexivity. alike_by_computation.
Qed.
Print Assumptions C55_precision_refuted.
(** A key that has the name of a foreign key of another table gets the rules of that foreign key,
    and the shown text is not read. *)
Theorem C55_shared_name_refuted : exists t u tables, p_consists [t] tables [] /\ forallb (written_ok Pg) tables = true /\ read_shown [t] = Ok (map (meant Pg) tables)
  /\ pt_schema u = "other" /\ read_shown [t; u] = Err.
Proof.
  exists (one_table [int_col "a"] [mkPConstraint "k" PUnique ["a"]] []).
  exists (mkPTable "other" "u" false [int_col "b"] [mkPConstraint "k" (PForeign "t" ["a"] "CASCADE" "NO ACTION") ["b"]] []).
  exists [table_of [int_item "a"; ICon (CUnique (Some (plain_name "k")) (key_columns ["a"]))]].
  split; [|split; [vm_compute; reflexivity|split; [vm_compute; reflexivity|split; [reflexivity|vm_compute; reflexivity]]]].
  split; [|constructor]. constructor; [|constructor]. split; [reflexivity|]. eexists [_], [_]. split; [reflexivity|]. split; [constructor; [apply int_says|constructor]|].
  constructor; [|constructor]. reflexivity.
Qed.
Print Assumptions C55_shared_name_refuted.
(** An index that has the name of a constraint. *)
Theorem C55_index_named_like_constraint_refuted : exists t x, pt_constraints t = [mkPConstraint "c" (PCheck "(a > 0)") []]
  /\ pt_indexes t = [mkPIndex "c" "CREATE INDEX c ON public.t USING btree (a)"] /\ read_shown [t] = Ok [CreateTable x].
Proof.
  eexists (one_table [int_col "a"] [mkPConstraint "c" (PCheck "(a > 0)") []] [mkPIndex "c" "CREATE INDEX c ON public.t USING btree (a)"]), _.
  split; [reflexivity|]. split; [reflexivity|]. vm_compute. reflexivity.
Qed.
Print Assumptions C55_index_named_like_constraint_refuted.
(** A view is shown as a table: a file without it makes the difference drop that "table". *)
Theorem C55_view_refuted : exists t v tables, pt_view v = true /\ p_consists [t] tables [] /\ forallb (written_ok Pg) tables = true
  /\ exists w, read_shown [t; v] = Ok (map (meant Pg) tables ++ [CreateTable w])%list
     /\ diff Pg id_sort no_text (Some (map (meant Pg) tables ++ [CreateTable w])%list) (Some (map (meant Pg) tables)) = DOk [DropTable "" false (in_public "v")].
Proof.
  exists (one_table [int_col "a"] [] []), (mkPTable "public" "v" true [int_col "a"] [] []), [table_of [int_item "a"]].
  split; [reflexivity|]. split; [|split; [vm_compute; reflexivity|]].
  - split; [|constructor]. constructor; [|constructor]. split; [reflexivity|]. eexists [_], []. split; [reflexivity|]. split; [constructor; [apply int_says|constructor]|constructor].
  - eexists. split; vm_compute; reflexivity.
Qed.
Print Assumptions C55_view_refuted.
(** A file that names the table without the schema: the difference drops the table and creates it again. *)
Theorem C55_unqualified_refuted : exists t text x y, read_shown [t] = Ok [CreateTable x] /\ parse Pg id_sort text = Ok [CreateTable y]
  /\ text = ("CREATE TABLE t (" ++ nl ++ "  a integer" ++ nl ++ ");" ++ nl)%string /\ show_postgres "public" [t] = ("CREATE TABLE public.t (" ++ nl ++ "  a integer" ++ nl ++ ");" ++ nl)%string
  /\ diff Pg id_sort no_text (Some [CreateTable x]) (Some [CreateTable y]) = DOk [DropTable "" false (in_public "t"); CreateTable y].
Proof.
  eexists (one_table [int_col "a"] [] []), _, _, _. split; [vm_compute; reflexivity|]. split; [|split; [reflexivity|split; [reflexivity|]]]; vm_compute; reflexivity.
Qed.
Print Assumptions C55_unqualified_refuted.

(** ** What is shown and not read *)

(** Columns of these types; a column whose name is a word of the lexer, for names are not quoted. *)
Theorem C55_column_not_read_refuted : forall c, In c
    [col "b" "ARRAY"; col "b" "USER-DEFINED"; col "b" "timestamp without time zone"; col "b" "time without time zone"; col "b" "bytea"; col "b" "date"; col "b" "interval"; col "b" "json";
     mkPColumn "b" "character" (Some "3") "" true None; col "index" "integer"] ->
  exists t, In c (pt_columns t) /\ plain_pg [t] [t] /\ by_name "public" [t] [t] /\ read_shown [t] = Err.
Proof.
  intros c I. exists (one_table [int_col "a"; c] [] []). split; [right; left; reflexivity|]. split; [|split].
  - constructor.
    + intros t [<-|[]]. split; [discriminate|]. intros x [<-|[<-|[]]]; [reflexivity|]. cbn [In] in I. repeat (destruct I as [<-|I]; [reflexivity|]). destruct I.
    + intros t x [<-|[]] [].
    + intros t i t' x [<-|[]] [].
  - split; [reflexivity|]. intros a x b y z E. destruct a as [|? a]; [destruct b; discriminate E|]. injection E as _ E. destruct a; discriminate E.
  - cbn [In] in I. repeat (destruct I as [<-|I]; [vm_compute; reflexivity|]). destruct I.
Qed.
Print Assumptions C55_column_not_read_refuted.
(** An index with a descending column or for part of the rows; an index on an expression is read as
    an index on the columns "lower" and "b". *)
Theorem C55_index_not_read_refuted : forall x, In x ["CREATE INDEX i ON public.t USING btree (a DESC)"; "CREATE INDEX i ON public.t USING btree (a) WHERE (a > 0)"] ->
  read_shown [one_table [int_col "a"] [] [mkPIndex "i" x]] = Err.
Proof. intros x I. cbn [In] in I. repeat (destruct I as [<-|I]; [vm_compute; reflexivity|]). destruct I. Qed.
Print Assumptions C55_index_not_read_refuted.
Theorem C55_expression_index_refuted : exists w i, read_shown [one_table [col "b" "text"] [] [mkPIndex "i" "CREATE INDEX i ON public.t USING btree (lower(b))"]] = Ok [CreateTable w; CreateIndex i]
  /\ map (fun c => id_name (ci_ident c)) (cx_columns i) = ["lower"; "b"].
Proof. eexists _, _. split; [vm_compute; reflexivity|reflexivity]. Qed.
Print Assumptions C55_expression_index_refuted.

(** ** The tables are shown in the order of their names. *)
Lemma put_order : forall x l, ShowFacts.in_order le_table l = true -> ShowFacts.in_order le_table (Show.put le_table x l) = true.
Proof.
  assert (T : forall x y, le_table x y = false -> le_table y x = true).
  { intros x y H. unfold le_table in *. rewrite (String.compare_antisym (pt_name x) (pt_name y)) in H. destruct (String.compare (pt_name y) (pt_name x)); [reflexivity|reflexivity|discriminate H]. }
  intros x l. induction l as [|y l IH]; intro H; [reflexivity|]. cbn [Show.put]. destruct (le_table x y) eqn:E.
  - cbn [ShowFacts.in_order]. rewrite E. exact H.
  - assert (H' : ShowFacts.in_order le_table l = true) by (destruct l; [reflexivity|]; cbn [ShowFacts.in_order] in H; apply andb_true_iff in H; apply H).
    specialize (IH H'). destruct l as [|z l]; [cbn [Show.put ShowFacts.in_order]; rewrite (T _ _ E); reflexivity|].
    cbn [Show.put] in *. cbn [ShowFacts.in_order] in H. apply andb_true_iff in H. destruct H as [H1 _]. destruct (le_table x z).
    + change (le_table y x && ShowFacts.in_order le_table (x :: z :: l) = true). rewrite (T _ _ E), IH. reflexivity.
    + change (le_table y z && ShowFacts.in_order le_table (z :: Show.put le_table x l) = true). rewrite H1, IH. reflexivity.
Qed.
Theorem C55_tables_in_order : forall schema db, exists l, Permutation.Permutation l (filter (fun t => String.eqb (pt_schema t) schema) db)
  /\ (forall a x y c, l = (a ++ x :: y :: c)%list -> String.compare (pt_name x) (pt_name y) <> Gt)
  /\ table_statements schema db = flat_map (fun t => match p_table_text db t with Some s => [s] | None => [] end) l.
Proof.
  intros schema db. exists (Show.order_by le_table (of_schema schema db)). split; [apply ShowFacts.order_by_perm|]. split; [|reflexivity].
  assert (O : ShowFacts.in_order le_table (Show.order_by le_table (of_schema schema db)) = true).
  { unfold Show.order_by. generalize (of_schema schema db). intro l. induction l as [|t l IH]; [reflexivity|]. apply put_order. exact IH. }
  revert O. generalize (Show.order_by le_table (of_schema schema db)). intros l O a. revert l O. induction a as [|z a IH]; intros l O x y c E; subst l.
  - cbn [app ShowFacts.in_order] in O. apply andb_true_iff in O. destruct O as [O _]. unfold le_table in O. destruct (String.compare (pt_name x) (pt_name y)); discriminate.
  - apply (IH (a ++ x :: y :: c)%list) with (c := c); [|reflexivity]. cbn [app] in O. destruct (a ++ x :: y :: c)%list; [reflexivity|]. cbn [ShowFacts.in_order] in O. apply andb_true_iff in O. apply O.
Qed.
Print Assumptions C55_tables_in_order.
Example C55_tables_in_order_example : List.length (table_statements "public" shown_pg) = List.length (filter (fun t => String.eqb (pt_schema t) "public") shown_pg).
Proof. vm_compute. reflexivity. Qed.
