(** Properties of what the show command prints for MySQL (C57) and CockroachDB (C58). *)
From Coq Require Import Lia.
From Verif Require Import GoStr Token Lexer Ast Parser Diff LexSpec Printable Written PrintLex PrintStmt WrittenFacts.
From Verif Require Import Apply Generate GenRead ShowMy ShowMyRead ShowMyFacts PropsDiff PropsApply PropsRound PropsWritten PropsGenRead.

Lemma sort_keeps_wkept : forall d srt ws, sort_keeps d srt ws -> forall w, In w ws -> wkept d srt w.
Proof.
  intros d srt ws H w I. unfold wkept, sorter, keeps_primary_first. destruct w as [t|x]; [|exact Logic.I]. specialize (H t I). destruct d; try exact Logic.I; exact H.
Qed.

(** * C57: a shown MySQL database is read as the tables it consists of *)

(** [m_table_text] is how the server describes a table, [m_table_says] which statement that
    stands for (ShowMyRead.v).  Missing for the full property: what [m_table_says] and
    [written_ok] leave out, see the refutation below. *)
Theorem C57_shown_database_is_read_partial : forall srt db ws, Forall2 m_table_says db ws -> forallb (written_ok My) ws = true -> sort_keeps My srt ws ->
  exists text, show_mysql (map (fun t => Some (m_table_text t)) db) = Some text /\ parse My srt text = Ok (map (meant My) ws).
Proof.
  intros srt db ws F H S. replace (map (fun t => Some (m_table_text t)) db) with (map Some (map m_table_text db)) by apply map_map. rewrite shown_my. eexists. split; [reflexivity|].
  apply written_parse; [apply sort_keeps_wkept, S|exact H|]. apply TT_lex, FF_TT, shown_my_text; assumption.
Qed.
Print Assumptions C57_shown_database_is_read_partial.

(** What is read for a column of the database. *)
Definition none_or {A : Type} (x : option string) (y : option A) (R : string -> A -> Prop) : Prop :=
  match x, y with None, None => True | Some x, Some y => R x y | _, _ => False end.
Theorem C57_columns_as_stored : forall c w, m_column_says c w -> (mc_notnull c = true -> mc_null c = false) ->
  let m := column_meant w in
  c_name m = ticked (mc_name c) /\ alike My (mc_type c) (datatype_string My (c_type m)) /\ c_notnull m = mc_notnull c
  /\ none_or (mc_default c) (c_default m) (fun x y => exists v, y = Some v /\ alike My x (idents_string My v))
  /\ none_or (mc_charset c) (c_charset m) (fun x y => y = plain_name x) /\ none_or (mc_collate c) (c_collate m) (fun x y => y = plain_name x)
  /\ c_autoinc m = mc_auto c
  /\ c_onaction m = (match mc_update c with Some x => "ON UPDATE " ++ x | None => "" end)
  /\ c_comment m = (match mc_comment c with Some x => x | None => "" end).
Proof.
  intros c [n ty ks keys l] (N & A & G & (ds & D & K) & Ki & O) X. cbn [wc_name wc_type wc_clauses wc_keys wc_late] in *. subst n ks keys l.
  destruct (mc_default c) as [x|]; [destruct D as (v & -> & V)|cbn in D; subst ds];
    destruct (mc_charset c), (mc_collate c), (mc_notnull c), (mc_null c), (mc_update c), (mc_auto c), (mc_comment c); try (specialize (X eq_refl); discriminate X); cbn;
    (split; [reflexivity|]); (split; [exact A|]); (split; [reflexivity|]);
    (split; [first [exact I|exists v; split; [reflexivity|exact V]]|]); repeat (split; [first [exact I|reflexivity]|]); reflexivity.
Qed.
Print Assumptions C57_columns_as_stored.

(** A file that means the tables the database consists of does not differ from it. *)
Theorem C57_no_difference_partial : forall w a b db ws l text shown, w_load w = true -> dialect_of (w_dialect w) = Some My ->
  show_mysql (map (fun t => Some (m_table_text t)) db) = Some shown -> w_resolve w a = Some shown -> w_resolve w b = Some text ->
  Forall2 m_table_says db ws -> forallb (written_ok My) ws = true -> sort_keeps My (w_srt w) ws ->
  forallb (written_ok My) l = true -> sort_keeps My (w_srt w) l -> lex My text = lex My (concat_str (map (written_string My) l)) -> map (meant My) l = map (meant My) ws ->
  diff_command w [a; b] = ([], Done) /\ apply_command w [a; b] = ([EPrint ("no difference" ++ nl)], Done).
Proof.
  intros w a b db ws l text shown L D Sh Ra Rb F H S Hl Sl E M.
  destruct (C57_shown_database_is_read_partial (w_srt w) db ws F H S) as (t & Et & P). rewrite Et in Sh. injection Sh as <-.
  apply (C28_no_difference_no_effect w a b My _ _ (map (meant My) ws) (map (meant My) l) L D Ra Rb P).
  - apply C53_written_schema_is_read_partial; [exact Hl|exact E|exact Sl].
  - rewrite M. apply C11_schema_equals_itself.
Qed.
Print Assumptions C57_no_difference_partial.

(** One failing query and nothing is shown. *)
Theorem C57_all_or_nothing : forall answers text, show_mysql answers = Some text ->
  exists l, answers = map Some l /\ text = concat_str (map (fun s => s ++ ";" ++ nl) l).
Proof.
  induction answers as [|[s|] r IH]; intros text H; [injection H as <-; exists []; split; reflexivity| |discriminate H].
  cbn [show_mysql] in H. destruct (show_mysql r) as [t|] eqn:E; [|discriminate H]. injection H as <-. destruct (IH t eq_refl) as (l & -> & ->). exists (s :: l). split; reflexivity.
Qed.
Print Assumptions C57_all_or_nothing.

Definition plain_column (n t : string) : m_column := mkMColumn n t None None None true false None None false None.
Definition my_users : m_table :=
  mkMTable "users"
    [mkMColumn "id" "bigint" None None None true false None None true None;
     mkMColumn "name" "varchar(255)" (Some "utf8mb4") (Some "utf8mb4_bin") None true false (Some "''") None false (Some "'the name'");
     mkMColumn "price" "decimal(10,2)" None None None false false (Some "NULL") None false None;
     mkMColumn "at" "timestamp" None None None false true (Some "CURRENT_TIMESTAMP") (Some "CURRENT_TIMESTAMP") false None]
    [MPrimary [("id", false)]; MKey true "u" [("name", false); ("at", true)]; MKey false "k" [("at", false)];
     MForeign "f" ["name"] "groups" ["id"] ""; MCheck "c" "((`price` > 0))"]
    "ENGINE=InnoDB AUTO_INCREMENT=5 DEFAULT CHARSET=utf8mb4 COLLATE=utf8mb4_0900_ai_ci".
Definition my_users_written : written :=
  WTable (mkWT false (mkON None (ticked "users"))
    [ICol (mkWC (ticked "id") (mkDT "bigint" TOKEN_BIGINT None) [KNotNull; KAutoIncrement] [] LNone);
     ICol (mkWC (ticked "name") (mkDT "varchar" TOKEN_VARCHAR (Some [word "255"])) [KCharset (word "utf8mb4"); KCollate (word "utf8mb4_bin"); KNotNull; KDefault [mkIdent "" "'" "''"]] [] (LComment "'the name'"));
     ICol (mkWC (ticked "price") (mkDT "decimal" TOKEN_DECIMAL (Some [word "10"; word ","; word "2"])) [KDefault [word "NULL"]] [] LNone);
     ICol (mkWC (ticked "at") (mkDT "timestamp" TOKEN_TIMESTAMP None) [KNull; KDefault [word "CURRENT_TIMESTAMP"]; KOnAction "ON UPDATE CURRENT_TIMESTAMP"] [] LNone);
     INameless (CPrimary None [mkCI (ticked "id") None]);
     ICon (CIndex (Some (ticked "u")) true None [mkCI (ticked "name") None; mkCI (ticked "at") (Some true)] None);
     ICon (CIndex (Some (ticked "k")) false None [mkCI (ticked "at") None] None);
     ICon (CForeign (Some (ticked "f")) [mkCI (ticked "name") None] (ticked "groups") [mkCI (ticked "id") None] "");
     ICon (CCheck (Some (ticked "c")) (Some [word "("; word "("; ticked "price"; word ">"; word "0"; word ")"; word ")"]))]
    [mkOpt "ENGINE" (Some [word "InnoDB"]); mkOpt "AUTO_INCREMENT" (Some [word "5"]); mkOpt "DEFAULT CHARSET" (Some [word "utf8mb4"]); mkOpt "COLLATE" (Some [word "utf8mb4_0900_ai_ci"])] None).
Ltac alike_ := (split; [reflexivity|split; [reflexivity|vm_compute; reflexivity]]).
Example C57_example_says : m_table_says my_users my_users_written /\ written_ok My my_users_written = true.
Proof.
  split; [|vm_compute; reflexivity]. eexists (_ :: _ :: _ :: _ :: []), _, _. split; [reflexivity|]. split; [discriminate|]. split; [|split; [|split; [discriminate|alike_]]].
  - apply Forall2_cons; [|apply Forall2_cons; [|apply Forall2_cons; [|apply Forall2_cons; [|apply Forall2_nil]]]];
      (split; [reflexivity|split; [alike_|split; [reflexivity|split; [|split; reflexivity]]]]).
    + exists []. split; reflexivity.
    + exists [KDefault [mkIdent "" "'" "''"]]. split; [eexists; split; [reflexivity|alike_]|reflexivity].
    + exists [KDefault [word "NULL"]]. split; [eexists; split; [reflexivity|alike_]|reflexivity].
    + exists [KDefault [word "CURRENT_TIMESTAMP"]]. split; [eexists; split; [reflexivity|alike_]|reflexivity].
  - apply Forall2_cons; [reflexivity|]. apply Forall2_cons; [reflexivity|]. apply Forall2_cons; [reflexivity|]. apply Forall2_cons; [split; reflexivity|].
    apply Forall2_cons; [|apply Forall2_nil]. eexists. split; [reflexivity|alike_].
Qed.
Example C57_example_text : m_table_text my_users =
  ("CREATE TABLE `users` (" ++ nl
  ++ "  `id` bigint NOT NULL AUTO_INCREMENT," ++ nl
  ++ "  `name` varchar(255) CHARACTER SET utf8mb4 COLLATE utf8mb4_bin NOT NULL DEFAULT '' COMMENT 'the name'," ++ nl
  ++ "  `price` decimal(10,2) DEFAULT NULL," ++ nl
  ++ "  `at` timestamp NULL DEFAULT CURRENT_TIMESTAMP ON UPDATE CURRENT_TIMESTAMP," ++ nl
  ++ "  PRIMARY KEY (`id`)," ++ nl ++ "  UNIQUE KEY `u` (`name`,`at` DESC)," ++ nl ++ "  KEY `k` (`at`)," ++ nl
  ++ "  CONSTRAINT `f` FOREIGN KEY (`name`) REFERENCES `groups` (`id`)," ++ nl ++ "  CONSTRAINT `c` CHECK ((`price` > 0))" ++ nl
  ++ ") ENGINE=InnoDB AUTO_INCREMENT=5 DEFAULT CHARSET=utf8mb4 COLLATE=utf8mb4_0900_ai_ci")%string.
Proof. reflexivity. Qed.

(** Tables a server holds every day whose description is rejected: unsigned and binary
    columns, fractional seconds of the current time, rules SET NULL, generated columns. *)
Definition table_with (c : m_column) (ks : list m_key) : m_table := mkMTable "t" [c] ks "ENGINE=InnoDB DEFAULT CHARSET=utf8mb4".
Definition rejected_tables : list m_table :=
  [table_with (plain_column "a" "int unsigned") [];
   table_with (plain_column "a" "longblob") [];
   table_with (mkMColumn "a" "datetime(6)" None None None true false (Some "CURRENT_TIMESTAMP(6)") (Some "CURRENT_TIMESTAMP(6)") false None) [];
   table_with (plain_column "a" "int") [MForeign "f" ["a"] "u" ["id"] " ON DELETE SET NULL"];
   table_with (mkMColumn "a" "int" None None (Some "((1 + 1)) VIRTUAL") true false None None false None) []].
Theorem C57_tables_rejected_refuted : forall t, In t rejected_tables -> forall srt, exists text,
  show_mysql [Some (m_table_text t)] = Some text /\ parse My srt text = Err.
Proof.
  intros t H srt. repeat (destruct H as [<-|H]; [eexists; split; [reflexivity|vm_compute; reflexivity]|]). destruct H.
Qed.
Print Assumptions C57_tables_rejected_refuted.
(** So are keys over prefixes of columns, and keys for full text search. *)
Theorem C57_keys_rejected_refuted : forall k, In k ["KEY `k` (`a`(10))"; "FULLTEXT KEY `k` (`a`)"; "UNIQUE KEY `k` ((lower(`a`)))"] ->
  forall srt, exists text, show_mysql [Some ("CREATE TABLE `t` (" ++ nl ++ "  `a` text," ++ nl ++ "  " ++ k ++ nl ++ ") ENGINE=InnoDB")] = Some text /\ parse My srt text = Err.
Proof.
  intros k H srt. repeat (destruct H as [<-|H]; [eexists; split; [reflexivity|vm_compute; reflexivity]|]). destruct H.
Qed.
Print Assumptions C57_keys_rejected_refuted.

(** * C58: a shown CockroachDB database is read as the tables it consists of *)

(** Missing for the full property: what [c_table_says] (CHECK constraints, STORING) and
    [written_ok] leave out, and foreign keys. *)
Theorem C58_shown_database_is_read_partial : forall srt db ws, Forall2 c_table_says db ws -> forallb (written_ok Crdb) ws = true -> sort_keeps Crdb srt ws ->
  exists text, show_cockroach (Some (c_rows db [])) = Some text /\ parse Crdb srt text = Ok (map (meant Crdb) ws).
Proof.
  intros srt db ws F H S. eexists. split; [reflexivity|]. apply written_parse; [apply sort_keeps_wkept, S|exact H|].
  apply TT_lex, FF_TT. unfold c_rows. cbn [map]. rewrite app_nil_r. apply shown_c_text; assumption.
Qed.
Print Assumptions C58_shown_database_is_read_partial.

(** With a foreign key anywhere in the database nothing is read: the server tells foreign keys
    in ALTER TABLE statements. *)
Theorem C58_foreign_keys_refuted : forall srt db ws fs, Forall2 c_table_says db ws -> forallb (written_ok Crdb) ws = true -> sort_keeps Crdb srt ws ->
  fs <> [] -> (forall f, In f fs -> no_nul (c_foreign_text f) = true /\ outside Crdb (c_foreign_text f)) ->
  exists text, show_cockroach (Some (c_rows db fs)) = Some text /\ parse Crdb srt text = Err.
Proof.
  intros srt db ws fs F H S N C. eexists. split; [reflexivity|]. apply (foreign_rows srt db ws fs F H (sort_keeps_wkept _ _ _ S) N C).
Qed.
Print Assumptions C58_foreign_keys_refuted.

Theorem C58_no_difference_partial : forall w a b db ws l text shown, w_load w = true -> dialect_of (w_dialect w) = Some Crdb ->
  show_cockroach (Some (c_rows db [])) = Some shown -> w_resolve w a = Some shown -> w_resolve w b = Some text ->
  Forall2 c_table_says db ws -> forallb (written_ok Crdb) ws = true -> sort_keeps Crdb (w_srt w) ws ->
  forallb (written_ok Crdb) l = true -> sort_keeps Crdb (w_srt w) l -> lex Crdb text = lex Crdb (concat_str (map (written_string Crdb) l)) -> map (meant Crdb) l = map (meant Crdb) ws ->
  diff_command w [a; b] = ([], Done) /\ apply_command w [a; b] = ([EPrint ("no difference" ++ nl)], Done).
Proof.
  intros w a b db ws l text shown L D Sh Ra Rb F H S Hl Sl E M.
  destruct (C58_shown_database_is_read_partial (w_srt w) db ws F H S) as (t & Et & P). rewrite Et in Sh. injection Sh as <-.
  apply (C28_no_difference_no_effect w a b Crdb _ _ (map (meant Crdb) ws) (map (meant Crdb) l) L D Ra Rb P).
  - apply C53_written_schema_is_read_partial; [exact Hl|exact E|exact Sl].
  - rewrite M. apply C11_schema_equals_itself.
Qed.
Print Assumptions C58_no_difference_partial.

Definition crdb_users : c_table :=
  mkCTable "public" "users"
    [mkCColumn "id" "UUID" true false (Some "gen_random_uuid()") None; mkCColumn """user""" "VARCHAR(10)" true true None None;
     mkCColumn "n" "INT8" false false (Some "1:::INT8") None; mkCColumn "low" "STRING" true true None (Some "(lower(x)) STORED")]
    [CkPrimary "users_pkey" [("id", false)]; CkIndex false "i" [("n", false); ("low", true)] ""; CkIndex true "u" [("""user""", false)] ""].
Definition dq (n : string) : ident := mkIdent n """" ("""" ++ n ++ """").
Definition crdb_users_written : written :=
  WTable (mkWT false (mkON (Some (word "public")) (word "users"))
    [ICol (mkWC (word "id") (mkDT "UUID" TOKEN_UUID None) [KNotNull; KDefault [word "gen_random_uuid"; word "("; word ")"]] [] LNone);
     ICol (mkWC (dq "user") (mkDT "VARCHAR" TOKEN_VARCHAR (Some [word "10"])) [KNull] [] LNone);
     ICol (mkWC (word "n") (mkDT "INT8" TOKEN_INT8 None) [KNotVisible; KNotNull; KDefault [word "1"; word ":::"; word "INT8"]] [] LNone);
     ICol (mkWC (word "low") (mkDT "STRING" TOKEN_STRING None) [KNull; KAs (mkAs (Some [word "("; word "lower"; word "("; word "x"; word ")"; word ")"]) "STORED")] [] LNone);
     ICon (CPrimary (Some (word "users_pkey")) [mkCI (word "id") (Some false)]);
     ICon (CIndex (Some (word "i")) false None [mkCI (word "n") (Some false); mkCI (word "low") (Some true)] None);
     ICon (CIndex (Some (word "u")) true None [mkCI (dq "user") (Some false)] None)] [] None).
Example C58_example_says : c_table_says crdb_users crdb_users_written /\ written_ok Crdb crdb_users_written = true.
Proof.
  split; [|vm_compute; reflexivity]. eexists _, _, (_ :: _ :: _ :: _ :: []), _. split; [reflexivity|]. split; [reflexivity|]. split; [discriminate|]. split.
  - apply Forall2_cons; [|apply Forall2_cons; [|apply Forall2_cons; [|apply Forall2_cons; [|apply Forall2_nil]]]];
      (split; [reflexivity|split; [alike_|split; [|split; reflexivity]]]).
    + eexists [_], []. split; [eexists; split; [reflexivity|]|split; reflexivity]. alike_.
    + exists [], []. split; [reflexivity|split; reflexivity].
    + eexists [_], []. split; [eexists; split; [reflexivity|]|split; reflexivity]. alike_.
    + eexists [], [_]. split; [reflexivity|]. split; [eexists; split; [reflexivity|]|reflexivity]. alike_.
  - apply Forall2_cons; [|apply Forall2_cons; [|apply Forall2_cons; [|apply Forall2_nil]]].
    + do 2 eexists. refine (conj _ (conj _ eq_refl)); [reflexivity|]. apply Forall2_cons; [split; reflexivity|apply Forall2_nil].
    + split; [reflexivity|]. do 2 eexists. refine (conj _ (conj _ eq_refl)); [reflexivity|]. apply Forall2_cons; [split; reflexivity|]. apply Forall2_cons; [split; reflexivity|apply Forall2_nil].
    + split; [reflexivity|]. do 2 eexists. refine (conj _ (conj _ eq_refl)); [reflexivity|]. apply Forall2_cons; [split; reflexivity|apply Forall2_nil].
Qed.
Definition crdb_foreign : c_foreign := mkCForeign "public.users" "f" ["n"] "public.groups" ["id"] "".
Example C58_foreign_example : no_nul (c_foreign_text crdb_foreign) = true /\ outside Crdb (c_foreign_text crdb_foreign)
  /\ c_foreign_text crdb_foreign = "ALTER TABLE public.users ADD CONSTRAINT f FOREIGN KEY (n) REFERENCES public.groups(id);".
Proof. split; [reflexivity|split; reflexivity]. Qed.

(** Of the tables themselves a CHECK constraint, a stored column of an index, and columns of
    type DATE or BYTES or an array are rejected. *)
Definition crdb_with (t : string) (ks : list c_key) : c_table := mkCTable "public" "t" [mkCColumn "a" t true true None None] ks.
Theorem C58_tables_rejected_refuted : forall t, In t [crdb_with "DATE" []; crdb_with "BYTES" []; crdb_with "STRING[]" [];
    crdb_with "INT8" [CkCheck "c" "(a > 0:::INT8)"]; crdb_with "INT8" [CkIndex false "i" [("a", false)] " STORING (b)"]] ->
  forall srt, exists text, show_cockroach (Some (c_rows [t] [])) = Some text /\ parse Crdb srt text = Err.
Proof.
  intros t H srt. repeat (destruct H as [<-|H]; [eexists; split; [reflexivity|vm_compute; reflexivity]|]). destruct H.
Qed.
Print Assumptions C58_tables_rejected_refuted.
