(** Properties of reading schemas in any of their written forms: C53. *)
From Coq Require Import Lia.
From Verif Require Import GoStr Token Lexer Ast Parser LexSpec.
From Verif Require Import Printable Written PrintStmt PrintDdl WrittenFacts PropsParse PropsRound.

(** * C53: every written form is read as the schema it means *)

(** [written_ok] (Written.v) describes, without reference to the lexer or the parser, in which
    ways a schema may be written: clauses of columns in any order and repeated, keys, references and
    checks behind them, columns and constraints mixed, names of constraints left out.  [meant] says which
    schema that is.  The text only needs to have the same tokens as the written form: see C03
    and C04 for what that leaves free.  Missing for the full property: the forms outside of
    [written_ok], some of which a user would call well formed, see the refutations below. *)
Theorem C53_written_schema_is_read_partial : forall d srt l text, forallb (written_ok d) l = true ->
  lex d text = lex d (concat_str (map (written_string d) l)) ->
  (forall t, In (WTable t) l -> match d with
     | Crdb | My => forall cs, 12 < List.length cs <= List.length (table_constraints d t) ->
                    forallb (fun c => negb (is_pkey c)) (tl cs) = true -> srt cs = cs
     | _ => True end) ->
  parse d srt text = Ok (map (meant d) l).
Proof.
  intros d srt l text H E Hs. apply written_parse; [|exact H|rewrite E; apply written_lex, H].
  intros w Hin. unfold wkept, sorter, keeps_primary_first. destruct w as [t|x]; [|exact I]. specialize (Hs t Hin). destruct d; try exact I; exact Hs.
Qed.
Print Assumptions C53_written_schema_is_read_partial.

(** With at most twelve constraints per table nothing has to be known about sort.Slice. *)
Theorem C53_written_small_schema_is_read_partial : forall d srt l text, forallb (written_ok d) l = true ->
  lex d text = lex d (concat_str (map (written_string d) l)) ->
  (forall t, In (WTable t) l -> List.length (table_constraints d t) <= 12) ->
  parse d srt text = Ok (map (meant d) l).
Proof.
  intros d srt l text H E Hn. apply C53_written_schema_is_read_partial; [exact H|exact E|]. intros t Ht. specialize (Hn t Ht). destruct d; try exact I; intros cs L; lia.
Qed.
Print Assumptions C53_written_small_schema_is_read_partial.

(** Two written forms of one schema are not told apart. *)
Theorem C53_same_meaning_same_schema_partial : forall d srt l1 l2, forallb (written_ok d) l1 = true -> forallb (written_ok d) l2 = true ->
  (forall t, In (WTable t) l1 \/ In (WTable t) l2 -> List.length (table_constraints d t) <= 12) ->
  map (meant d) l1 = map (meant d) l2 ->
  parse d srt (concat_str (map (written_string d) l1)) = parse d srt (concat_str (map (written_string d) l2)).
Proof.
  intros d srt l1 l2 H1 H2 Hn E.
  rewrite (C53_written_small_schema_is_read_partial d srt l1 _ H1 eq_refl); [|intros t Ht; apply Hn; left; exact Ht].
  rewrite (C53_written_small_schema_is_read_partial d srt l2 _ H2 eq_refl); [|intros t Ht; apply Hn; right; exact Ht]. rewrite E. reflexivity.
Qed.
Print Assumptions C53_same_meaning_same_schema_partial.

(** The schema a text is read as, given a written form with the same tokens. *)
Definition reads_as (d : dialect) (text : string) (l : list written) (s : string) : Prop :=
  forallb (written_ok d) l = true /\ lex d text = lex d (concat_str (map (written_string d) l)) /\ ddl_string d (map (meant d) l) = s.
Definition col (n : string) (t : datatype) (ks : list clause) (keys : list inline) (l : late) : item := ICol (mkWC (word n) t ks keys l).
Definition cols (l : list string) : list colident := map (fun n => mkCI (word n) None) l.
Example C53_example_pg : reads_as Pg
  "CREATE TABLE t (UNIQUE (a, b), a INT NULL DEFAULT 1 NOT NULL PRIMARY KEY UNIQUE, FOREIGN KEY (b) REFERENCES u (id), b TEXT DEFAULT 'x' UNIQUE);"
  [WTable (mkWT false (mkON None (word "t"))
     [INameless (CUnique None (cols ["a"; "b"]));
      col "a" (mkDT "INT" TOKEN_INTEGER None) [KNull; KDefault [word "1"]; KNotNull] [KPrimary; KUnique] LNone;
      INameless (CForeign None (cols ["b"]) (word "u") (cols ["id"]) "");
      col "b" (mkDT "TEXT" TOKEN_TEXT None) [KDefault [word "'x'"]] [KUnique] LNone] [] None)]
  ("CREATE TABLE t (" ++ nl ++ "    a INT DEFAULT 1 NOT NULL," ++ nl ++ "    b TEXT DEFAULT 'x'," ++ nl ++
   "    CONSTRAINT t_unique_a_b UNIQUE (a, b)," ++ nl ++ "    CONSTRAINT t_pkey PRIMARY KEY (a)," ++ nl ++ "    CONSTRAINT t_unique_a UNIQUE (a)," ++ nl ++
   "    CONSTRAINT t_b_fkey FOREIGN KEY (b) REFERENCES u (id)," ++ nl ++ "    CONSTRAINT t_unique_b UNIQUE (b)" ++ nl ++ ");" ++ nl)%string.
Proof. unfold reads_as. split; [|split]; vm_compute; reflexivity. Qed.
Example C53_example_crdb : reads_as Crdb
  "CREATE TABLE t (a INT8 DEFAULT 1 NOT NULL DEFAULT 2 NOT VISIBLE PRIMARY KEY, b STRING UNIQUE, c STRING NULL NOT NULL AS (lower(b)) STORED);"
  [WTable (mkWT false (mkON None (word "t"))
     [col "a" (mkDT "INT8" TOKEN_INT8 None) [KDefault [word "1"]; KNotNull; KDefault [word "2"]; KNotVisible] [KPrimary] LNone;
      col "b" (mkDT "STRING" TOKEN_STRING None) [] [KUnique] LNone;
      col "c" (mkDT "STRING" TOKEN_STRING None) [KNull; KNotNull; KAs (mkAs (Some [word "("; word "lower"; word "("; word "b"; word ")"; word ")"]) "STORED")] [] LNone] [] None)]
  ("CREATE TABLE t (" ++ nl ++ "    a INT8 NOT VISIBLE NOT NULL DEFAULT 2," ++ nl ++ "    b STRING," ++ nl ++ "    c STRING NOT NULL AS (lower(b)) STORED," ++ nl ++
   "    CONSTRAINT t_pkey PRIMARY KEY (a)," ++ nl ++ "    UNIQUE INDEX t_unique_b (b)" ++ nl ++ ");" ++ nl)%string.
Proof. unfold reads_as. split; [|split]; vm_compute; reflexivity. Qed.
Example C53_example_my : reads_as My
  "CREATE TABLE t (a INT AUTO_INCREMENT NOT NULL PRIMARY KEY COMMENT 'key', b VARCHAR(10) COLLATE x NOT NULL CHARACTER SET utf8, CHECK (b <> ''), FOREIGN KEY (b) REFERENCES u (id)) ENGINE = InnoDB;"
  [WTable (mkWT false (mkON None (word "t"))
     [col "a" (mkDT "INT" TOKEN_INTEGER None) [KAutoIncrement; KNotNull] [KPrimary] (LComment "'key'");
      col "b" (mkDT "VARCHAR" TOKEN_VARCHAR (Some [word "10"])) [KCollate (word "x"); KNotNull; KCharset (word "utf8")] [] LNone;
      INameless (CCheck None (Some [word "("; word "b"; word "<>"; mkIdent "" "'" "''"; word ")"]));
      INameless (CForeign None (cols ["b"]) (word "u") (cols ["id"]) "")] [mkOpt "ENGINE" (Some [word "InnoDB"])] None)]
  ("CREATE TABLE t (" ++ nl ++ "    a INT NOT NULL AUTO_INCREMENT COMMENT 'key'," ++ nl ++ "    b VARCHAR(10) CHARACTER SET utf8 COLLATE x NOT NULL," ++ nl ++
   "    PRIMARY KEY (a)," ++ nl ++ "    CONSTRAINT t_chk CHECK (b <> '')," ++ nl ++ "    CONSTRAINT t_b_fkey FOREIGN KEY (b) REFERENCES u (id)" ++ nl ++ ") ENGINE=InnoDB;" ++ nl)%string.
Proof. unfold reads_as. split; [|split]; vm_compute; reflexivity. Qed.
(** The primary key comes first wherever it is written. *)
Example C53_example_key_first : reads_as My
  "CREATE TABLE t (a INT UNIQUE, KEY i (a, b), b INT NOT NULL UNIQUE PRIMARY KEY);"
  [WTable (mkWT false (mkON None (word "t"))
     [col "a" (mkDT "INT" TOKEN_INTEGER None) [] [KUnique] LNone; ICon (CIndex (Some (word "i")) false None (cols ["a"; "b"]) None);
      col "b" (mkDT "INT" TOKEN_INTEGER None) [KNotNull] [KUnique; KPrimary] LNone] [] None)]
  ("CREATE TABLE t (" ++ nl ++ "    a INT NULL," ++ nl ++ "    b INT NOT NULL," ++ nl ++ "    PRIMARY KEY (b)," ++ nl ++ "    UNIQUE KEY t_unique_a (a)," ++ nl ++
   "    KEY i (a, b)," ++ nl ++ "    UNIQUE KEY t_unique_b (b)" ++ nl ++ ");" ++ nl)%string.
Proof. unfold reads_as. split; [|split]; vm_compute; reflexivity. Qed.
Example C53_example_sp : reads_as Sp
  "CREATE TABLE t (CONSTRAINT f FOREIGN KEY (b) REFERENCES u (id), a INT64 NULL NOT NULL, b STRING(MAX) DEFAULT ('x') NOT NULL OPTIONS (x = 1)) PRIMARY KEY (a);"
  [WTable (mkWT false (mkON None (word "t"))
     [ICon (CForeign (Some (word "f")) (cols ["b"]) (word "u") (cols ["id"]) "");
      col "a" (mkDT "INT64" TOKEN_INT64 None) [KNull; KNotNull] [] LNone;
      col "b" (mkDT "STRING" TOKEN_STRING (Some [word "MAX"])) [KDefault [word "("; mkIdent "x" "'" "'x'"; word ")"]; KNotNull] [] (LOptions [word "("; word "x"; word "="; word "1"; word ")"])]
     [mkOpt "PRIMARY KEY" (Some [word "("; word "a"; word ")"])] None)]
  ("CREATE TABLE t (" ++ nl ++ "    a INT64 NOT NULL," ++ nl ++ "    b STRING(MAX) NOT NULL DEFAULT ('x') OPTIONS (x = 1)," ++ nl ++
   "    CONSTRAINT f FOREIGN KEY (b) REFERENCES u (id)" ++ nl ++ ") PRIMARY KEY (a);" ++ nl)%string.
Proof. unfold reads_as. split; [|split]; vm_compute; reflexivity. Qed.

(** References and checks in a column. *)
Example C53_example_references_pg : reads_as Pg
  "CREATE TABLE t (a INT NOT NULL UNIQUE REFERENCES u (id) ON DELETE CASCADE PRIMARY KEY, b INT DEFAULT 1 CHECK (b > 0), c INT REFERENCES v (x), d INT REFERENCES w (y) ON UPDATE NO ACTION);"
  [WTable (mkWT false (mkON None (word "t"))
     [col "a" (mkDT "INT" TOKEN_INTEGER None) [KNotNull] [KUnique; KReferences (word "u") (cols ["id"]) "ON DELETE CASCADE"; KPrimary] LNone;
      col "b" (mkDT "INT" TOKEN_INTEGER None) [KDefault [word "1"]] [KCheck [word "("; word "b"; word ">"; word "0"; word ")"]] LNone;
      col "c" (mkDT "INT" TOKEN_INTEGER None) [] [KReferences (word "v") (cols ["x"]) ""] LNone;
      col "d" (mkDT "INT" TOKEN_INTEGER None) [] [KReferences (word "w") (cols ["y"]) "ON UPDATE NO ACTION"] LNone] [] None)]
  ("CREATE TABLE t (" ++ nl ++ "    a INT NOT NULL," ++ nl ++ "    b INT DEFAULT 1," ++ nl ++ "    c INT," ++ nl ++ "    d INT," ++ nl ++
   "    CONSTRAINT t_unique_a UNIQUE (a)," ++ nl ++ "    CONSTRAINT t_a_fkey FOREIGN KEY (a) REFERENCES u (id) ON DELETE CASCADE," ++ nl ++ "    CONSTRAINT t_pkey PRIMARY KEY (a)," ++ nl ++
   "    CONSTRAINT t_b_check CHECK (b > 0)," ++ nl ++ "    CONSTRAINT t_c_fkey FOREIGN KEY (c) REFERENCES v (x)," ++ nl ++ "    CONSTRAINT t_d_fkey FOREIGN KEY (d) REFERENCES w (y) ON UPDATE NO ACTION" ++ nl ++ ");" ++ nl)%string.
Proof. unfold reads_as. split; [|split]; vm_compute; reflexivity. Qed.
Example C53_example_references_crdb : reads_as Crdb
  "CREATE TABLE t (a INT8 REFERENCES u (id) ON DELETE NO ACTION PRIMARY KEY, b INT8 CHECK (b > 0), c INT8);"
  [WTable (mkWT false (mkON None (word "t"))
     [col "a" (mkDT "INT8" TOKEN_INT8 None) [] [KReferences (word "u") (cols ["id"]) "ON DELETE NO ACTION"; KPrimary] LNone;
      col "b" (mkDT "INT8" TOKEN_INT8 None) [] [KCheck [word "("; word "b"; word ">"; word "0"; word ")"]] LNone;
      col "c" (mkDT "INT8" TOKEN_INT8 None) [] [] LNone] [] None)]
  ("CREATE TABLE t (" ++ nl ++ "    a INT8," ++ nl ++ "    b INT8," ++ nl ++ "    c INT8," ++ nl ++
   "    CONSTRAINT t_pkey PRIMARY KEY (a)," ++ nl ++ "    CONSTRAINT t_a_fkey FOREIGN KEY (a) REFERENCES u (id) ON DELETE NO ACTION," ++ nl ++ "    CONSTRAINT t_b_check CHECK (b > 0)" ++ nl ++ ");" ++ nl)%string.
Proof. unfold reads_as. split; [|split]; vm_compute; reflexivity. Qed.
(** The action is read, but not printed (C08_mysql_action_is_lost_refuted). *)
Example C53_example_references_my : reads_as My
  "CREATE TABLE t (a INT PRIMARY KEY REFERENCES u (id) ON DELETE CASCADE, b INT UNIQUE CHECK (b > 0), c INT COMMENT 'last');"
  [WTable (mkWT false (mkON None (word "t"))
     [col "a" (mkDT "INT" TOKEN_INTEGER None) [] [KPrimary; KReferences (word "u") (cols ["id"]) "ON DELETE CASCADE"] LNone;
      col "b" (mkDT "INT" TOKEN_INTEGER None) [] [KUnique; KCheck [word "("; word "b"; word ">"; word "0"; word ")"]] LNone;
      col "c" (mkDT "INT" TOKEN_INTEGER None) [] [] (LComment "'last'")] [] None)]
  ("CREATE TABLE t (" ++ nl ++ "    a INT NULL," ++ nl ++ "    b INT NULL," ++ nl ++ "    c INT NULL COMMENT 'last'," ++ nl ++
   "    PRIMARY KEY (a)," ++ nl ++ "    CONSTRAINT t_a_fkey FOREIGN KEY (a) REFERENCES u (id)," ++ nl ++ "    UNIQUE KEY t_unique_b (b)," ++ nl ++
   "    CONSTRAINT t_b_check CHECK (b > 0)" ++ nl ++ ");" ++ nl)%string.
Proof. unfold reads_as. split; [|split]; vm_compute; reflexivity. Qed.
Example C53_example_references_sp : reads_as Sp
  "CREATE TABLE t (a INT64 NOT NULL REFERENCES u (id), b INT64 CHECK (b > 0), c INT64) PRIMARY KEY (a);"
  [WTable (mkWT false (mkON None (word "t"))
     [col "a" (mkDT "INT64" TOKEN_INT64 None) [KNotNull] [KReferences (word "u") (cols ["id"]) ""] LNone;
      col "b" (mkDT "INT64" TOKEN_INT64 None) [] [KCheck [word "("; word "b"; word ">"; word "0"; word ")"]] LNone;
      col "c" (mkDT "INT64" TOKEN_INT64 None) [] [] LNone]
     [mkOpt "PRIMARY KEY" (Some [word "("; word "a"; word ")"])] None)]
  ("CREATE TABLE t (" ++ nl ++ "    a INT64 NOT NULL," ++ nl ++ "    b INT64," ++ nl ++ "    c INT64," ++ nl ++
   "    CONSTRAINT t_a_fkey FOREIGN KEY (a) REFERENCES u (id)," ++ nl ++ "    CONSTRAINT t_b_check CHECK (b > 0)" ++ nl ++ ") PRIMARY KEY (a);" ++ nl)%string.
Proof. unfold reads_as. split; [|split]; vm_compute; reflexivity. Qed.
(** The condition that a column follows cannot be dropped: the token behind a check or a reference is skipped
    without a look at it.  At the end of the table that is the closing parenthesis, in front of a table
    constraint the comma, and what is left is rejected. *)
Theorem C53_check_in_last_column_refuted : forall d srt, let typ := match d with Sp => "INT64" | _ => "INT" end in let key := match d with Sp => " PRIMARY KEY (a)" | _ => "" end in
  parse d srt ("CREATE TABLE t (a " ++ typ ++ " CHECK (a > 0))" ++ key ++ ";") = Err
  /\ parse d srt ("CREATE TABLE t (a " ++ typ ++ " REFERENCES u (id))" ++ key ++ ";") = Err
  /\ parse d srt ("CREATE TABLE t (a " ++ typ ++ " CHECK (a > 0), CONSTRAINT f FOREIGN KEY (a) REFERENCES u (id))" ++ key ++ ";") = Err
  /\ parse d srt ("CREATE TABLE t (a " ++ typ ++ " REFERENCES u (id), CONSTRAINT f FOREIGN KEY (a) REFERENCES u (id))" ++ key ++ ";") = Err.
Proof. intros d srt. destruct d; cbv zeta; (split; [|split; [|split]]); vm_compute; reflexivity. Qed.
Print Assumptions C53_check_in_last_column_refuted.
(** What is skipped may be a word that matters: CHECK (a > 0) UNIQUE is read as CHECK (a > 0). *)
Theorem C53_unique_behind_check_is_lost_refuted : forall d srt, d <> Sp -> exists t n e,
  parse d srt "CREATE TABLE t (a INT CHECK (a > 0) UNIQUE, b INT);" = Ok [CreateTable t] /\ ct_constraints t = [CCheck n e].
Proof. intros d srt H. destruct d; try congruence; eexists; eexists; eexists; (split; [vm_compute; reflexivity|reflexivity]). Qed.
Print Assumptions C53_unique_behind_check_is_lost_refuted.

(** Forms a user would write that are rejected: NOT NULL behind a key, or a further clause
    behind a default value. *)
Theorem C53_clause_behind_key_refuted : forall d srt, d <> Sp -> parse d srt "CREATE TABLE t (a INT PRIMARY KEY NOT NULL);" = Err
  /\ parse d srt "CREATE TABLE t (a INT UNIQUE NOT NULL);" = Err /\ parse d srt "CREATE TABLE t (a INT UNIQUE DEFAULT 1);" = Err.
Proof. intros d srt H. destruct d; try congruence; (split; [|split]); vm_compute; reflexivity. Qed.
Print Assumptions C53_clause_behind_key_refuted.
(** NULL behind a default value becomes part of the value. *)
Theorem C53_null_behind_default_refuted : forall d srt, d <> Sp -> exists t v, parse d srt "CREATE TABLE t (a INT DEFAULT 1 NULL);" = Ok [CreateTable t]
  /\ map c_default (ct_columns t) = [Some (Some v)] /\ map id_raw v = ["1"; "NULL"].
Proof. intros d srt H. destruct d; try congruence; eexists; eexists; (split; [reflexivity|split; reflexivity]). Qed.
Print Assumptions C53_null_behind_default_refuted.
(** The default name of a foreign key contains the order of its columns in cockroachdb and spanner; it
    is printed without quotation marks and cannot be read back. *)
Theorem C53_foreign_key_name_refuted : forall d srt, d = Crdb \/ d = Sp ->
  let key := match d with Sp => ") PRIMARY KEY (a);" | _ => ");" end in
  let typ := match d with Sp => "INT64" | _ => "INT8" end in
  exists l, parse d srt ("CREATE TABLE t (a " ++ typ ++ ", FOREIGN KEY (a) REFERENCES u (id)" ++ key) = Ok l
  /\ ddl_string d l = ("CREATE TABLE t (" ++ nl ++ "    a " ++ typ ++ "," ++ nl ++ "    CONSTRAINT t_a ASC_fkey FOREIGN KEY (a) REFERENCES u (id)" ++ nl ++ key ++ nl)%string
  /\ parse d srt (ddl_string d l) = Err.
Proof. intros d srt D. destruct D; subst d; cbv zeta; eexists; (split; [reflexivity|split; reflexivity]). Qed.
Print Assumptions C53_foreign_key_name_refuted.
(** CockroachDB: an index method can only be written inside of CREATE TABLE, and there the token behind it is
    skipped without a look at it: at the end of the table this is the closing parenthesis, which is why the
    semicolon cannot be left out then. *)
Theorem C53_cockroach_index_method_refuted : forall srt,
  parse Crdb srt "CREATE INDEX j ON t USING hash (a);" = Err
  /\ parse Crdb srt "CREATE INDEX j ON t (a) USING hash;" = Err
  /\ parse Crdb srt "CREATE TABLE t (a INT8, INDEX j (a) USING hash)" = Err
  /\ (exists l, parse Crdb srt "CREATE TABLE t (a INT8, INDEX j (a))" = Ok l).
Proof. intro srt. split; [|split; [|split]]; [vm_compute; reflexivity|vm_compute; reflexivity|vm_compute; reflexivity|eexists; vm_compute; reflexivity]. Qed.
Print Assumptions C53_cockroach_index_method_refuted.
