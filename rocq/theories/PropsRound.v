(** Properties of printing and reading back: C08, C09. *)
From Coq Require Import Lia.
From Verif Require Import GoStr Token Lexer Ast Parser.
From Verif Require Import Printable PrintStmt PrintDdl PropsParse.

(** * C08: printing, then parsing, is the identity *)

(** [printable] (Printable.v) describes, without reference to the printer, the lexer or the
    parser loops, the schemas the text form can express.  Comments put in front of statements
    are not part of the schema.  Missing for the full property: the schemas outside of
    [printable], some of which a user would call well formed, see the refutations below. *)
Theorem C08_printed_schema_is_read_back_partial : forall d srt l, printable d l = true ->
  (forall t, In (CreateTable t) l -> match d with
     | Crdb | My => forall cs, 12 < List.length cs <= List.length (ct_constraints t) ->
                    forallb (fun c => negb (is_pkey c)) (tl cs) = true -> srt cs = cs
     | _ => True end) ->
  parse d srt (ddl_string d l) = Ok (map without_comment l).
Proof.
  intros d srt l H Hs. apply ddl_run; [|exact H]. intros s Hin. unfold first_kept, keeps_primary_first.
  destruct d; try exact I; destruct s as [t|x| | |]; try exact I; apply (Hs t Hin).
Qed.
Print Assumptions C08_printed_schema_is_read_back_partial.

(** With at most twelve constraints per table nothing has to be known about sort.Slice. *)
Theorem C08_printed_small_schema_is_read_back_partial : forall d srt l, printable d l = true ->
  (forall t, In (CreateTable t) l -> List.length (ct_constraints t) <= 12) ->
  parse d srt (ddl_string d l) = Ok (map without_comment l).
Proof.
  intros d srt l H Hn. apply C08_printed_schema_is_read_back_partial; [exact H|]. intros t Ht. specialize (Hn t Ht). destruct d; try exact I; intros cs L; lia.
Qed.
Print Assumptions C08_printed_small_schema_is_read_back_partial.

(** Different schemas are printed differently. *)
Theorem C08_printing_loses_nothing_partial : forall d l1 l2, printable d l1 = true -> printable d l2 = true ->
  ddl_string d l1 = ddl_string d l2 -> map without_comment l1 = map without_comment l2.
Proof.
  intros d l1 l2 H1 H2 E.
  assert (K : forall l, printable d l = true -> parse d id_srt (ddl_string d l) = Ok (map without_comment l)).
  { intros l H. apply C08_printed_schema_is_read_back_partial; [exact H|]. intros t _. destruct d; try exact I; reflexivity. }
  pose proof (K l1 H1) as P1. pose proof (K l2 H2) as P2. rewrite E, P2 in P1. congruence.
Qed.
Print Assumptions C08_printing_loses_nothing_partial.

Definition word (s : string) : ident := mkIdent s "" s.
Definition quoted (s : string) : ident := mkIdent s """" ("""" ++ s ++ """").
Definition table (cols : list column) (cs : list constraint) : stmt := CreateTable (mkCT "" false (mkON None (word "t")) cols cs [] None).
Definition int_column (d : dialect) (n : string) : column :=
  mkCol (word n) (match d with Sp => mkDT "INT64" TOKEN_INT64 None | Crdb => mkDT "INT" TOKEN_INT8 None | _ => mkDT "INT" TOKEN_INTEGER None end)
        None false false None None None false "" "" None.

Example C08_example_pg :
  let t := mkCT "people" true (mkON (Some (word "app")) (word "users"))
             [ mkCol (word "id") (mkDT "UUID" TOKEN_UUID None) (Some (Some [word "gen_random_uuid"; word "("; word ")"])) true false None None None false "" "" None;
               mkCol (quoted "full name") (mkDT "VARCHAR" TOKEN_VARYING (Some [word "255"])) (Some (Some [word "'it is'"; word "::"; word "TEXT"])) false false None None None false "" "" None ]
             [ CPrimary (Some (word "users_pkey")) [mkCI (word "id") None];
               CForeign (Some (word "f")) [mkCI (quoted "full name") None] (word "u") [mkCI (word "n") None] "";
               CUnique (Some (word "k")) [mkCI (word "id") None; mkCI (quoted "full name") None] ] [] None in
  let x := mkCX "" true false (mkON None (word "i")) (mkON None (word "users")) [word "btree"] None [mkCI (word "id") None] None in
  printable Pg [CreateTable t; CreateIndex x] = true
  /\ ddl_string Pg [CreateTable t; CreateIndex x] =
     ("-- people" ++ nl ++ "CREATE TABLE IF NOT EXISTS app.users (" ++ nl ++
      "    id UUID DEFAULT gen_random_uuid() NOT NULL," ++ nl ++
      "    ""full name"" VARCHAR(255) DEFAULT 'it is'::TEXT," ++ nl ++
      "    CONSTRAINT users_pkey PRIMARY KEY (id)," ++ nl ++
      "    CONSTRAINT f FOREIGN KEY (""full name"") REFERENCES u (n)," ++ nl ++
      "    CONSTRAINT k UNIQUE (id, ""full name"")" ++ nl ++ ");" ++ nl ++
      "CREATE UNIQUE INDEX i ON users USING btree (id);" ++ nl)%string.
Proof. split; reflexivity. Qed.

(** The schema read from [s] is printable and is printed as [t]. *)
Definition reads_and_prints (d : dialect) (s t : string) : Prop :=
  exists l, parse d id_srt s = Ok l /\ printable d l = true /\ ddl_string d l = t.

Example C08_example_crdb : reads_and_prints Crdb
  "create table t (a INT8 not null default unique_rowid(), b STRING, c STRING as (lower(b)) stored, primary key (a DESC), unique index i (b)); create index j on t (b ASC, c);"
  ("CREATE TABLE t (" ++ nl ++ "    a INT8 NOT NULL DEFAULT unique_rowid()," ++ nl ++ "    b STRING," ++ nl ++ "    c STRING AS (lower(b)) STORED," ++ nl ++
   "    CONSTRAINT t_pkey PRIMARY KEY (a DESC)," ++ nl ++ "    UNIQUE INDEX i (b)" ++ nl ++ ");" ++ nl ++ "CREATE INDEX j ON t (b ASC, c);" ++ nl)%string.
Proof. eexists. repeat split; reflexivity. Qed.
Example C08_example_my : reads_and_prints My
  "create table `t` (`a` INT not null auto_increment, `b` VARCHAR(10) character set utf8 default 'x' comment 'a b', `c` DATETIME default CURRENT_TIMESTAMP on update CURRENT_TIMESTAMP, primary key (`a`), unique key `k` (`b`), constraint `f` foreign key (`a`) references `u` (`id`), constraint `g` check (`a` >= 0)) engine=InnoDB default charset=utf8;"
  ("CREATE TABLE `t` (" ++ nl ++ "    `a` INT NOT NULL AUTO_INCREMENT," ++ nl ++ "    `b` VARCHAR(10) CHARACTER SET utf8 NULL DEFAULT 'x' COMMENT 'a b'," ++ nl ++
   "    `c` DATETIME NULL DEFAULT CURRENT_TIMESTAMP ON update CURRENT_TIMESTAMP," ++ nl ++ "    PRIMARY KEY (`a`)," ++ nl ++ "    UNIQUE KEY `k` (`b`)," ++ nl ++
   "    CONSTRAINT `f` FOREIGN KEY (`a`) REFERENCES `u` (`id`)," ++ nl ++ "    CONSTRAINT `g` CHECK (`a` >= 0)" ++ nl ++ ") ENGINE=InnoDB DEFAULT CHARSET=utf8;" ++ nl)%string.
Proof. eexists. repeat split; vm_compute; reflexivity. Qed.
Example C08_example_sp : reads_and_prints Sp
  "create table t (a INT64 not null, b STRING(MAX), c TIMESTAMP options (allow_commit_timestamp = true), constraint f foreign key (a) references u (id), constraint g check (a > 0)) primary key (a), interleave in parent u on delete cascade, row deletion policy (older_than(c, interval 30 day));"
  ("CREATE TABLE t (" ++ nl ++ "    a INT64 NOT NULL," ++ nl ++ "    b STRING(MAX)," ++ nl ++ "    c TIMESTAMP OPTIONS (allow_commit_timestamp = TRUE)," ++ nl ++
   "    CONSTRAINT f FOREIGN KEY (a) REFERENCES u (id)," ++ nl ++ "    CONSTRAINT g CHECK (a > 0)" ++ nl ++ ") PRIMARY KEY (a)," ++ nl ++
   "INTERLEAVE IN PARENT u ON DELETE CASCADE," ++ nl ++ "ROW DELETION POLICY (older_than(c, interval 30 day));" ++ nl)%string.
Proof. eexists. repeat split; vm_compute; reflexivity. Qed.

(** Schemas that cannot be read back. *)
Definition name1 (n : string) : list colident := [mkCI (word n) None].
Theorem C08_foreign_key_with_action_refuted : exists d l, forall srt, (d = Pg \/ d = Crdb) /\ parse d srt (ddl_string d l) = Err.
Proof.
  exists Pg, [table [int_column Pg "a"] [CForeign (Some (word "f")) (name1 "a") (word "u") (name1 "id") "ON DELETE CASCADE"]].
  intro srt. split; [left|]; reflexivity.
Qed.
Print Assumptions C08_foreign_key_with_action_refuted.
Theorem C08_check_refuted : forall d, d = Pg \/ d = Crdb ->
  exists l, forall srt, ddl_string d l = ("CREATE TABLE t (" ++ nl ++ "    a INT," ++ nl ++ "    CONSTRAINT c CHECK (a > 0)" ++ nl ++ ");" ++ nl)%string
            /\ parse d srt (ddl_string d l) = Err.
Proof.
  intros d D. exists [table [int_column d "a"] [CCheck (Some (word "c")) (Some [word "("; word "a"; word ">"; word "0"; word ")"])]].
  intro srt. destruct D; subst d; split; reflexivity.
Qed.
Print Assumptions C08_check_refuted.
Theorem C08_mysql_action_is_lost_refuted : exists l1 l2, l1 <> l2 /\ ddl_string My l1 = ddl_string My l2.
Proof.
  exists [table [int_column My "a"] [CForeign (Some (word "f")) (name1 "a") (word "u") (name1 "id") "ON DELETE CASCADE"]],
         [table [int_column My "a"] [CForeign (Some (word "f")) (name1 "a") (word "u") (name1 "id") ""]].
  split; [discriminate|reflexivity].
Qed.
Print Assumptions C08_mysql_action_is_lost_refuted.
Theorem C08_default_with_auto_increment_refuted : exists l, forall srt,
  ddl_string My l = ("CREATE TABLE t (" ++ nl ++ "    a INT NOT NULL DEFAULT 1 AUTO_INCREMENT" ++ nl ++ ");" ++ nl)%string /\ parse My srt (ddl_string My l) = Err.
Proof.
  exists [table [mkCol (word "a") (mkDT "INT" TOKEN_INTEGER None) (Some (Some [word "1"])) true false None None None true "" "" None] []].
  intro srt. split; reflexivity.
Qed.
Print Assumptions C08_default_with_auto_increment_refuted.

(** * C09: normalising is idempotent *)

Lemma create_no_comment : forall d srt p s q, parseCreate d srt p = Ok (s, q) -> without_comment s = s.
Proof.
  intros d srt p s q H. unfold parseCreate, parseCreateTable, parseCreateIndex in H.
  repeat match type of H with
         | bind ?a _ = _ => let E := fresh "E" in destruct a eqn:E; cbn [bind] in H; try discriminate H; clear E
         | (let (_, _) := ?a in _) = _ => destruct a
         | (if ?b then _ else _) = _ => let E := fresh "E" in destruct b eqn:E; try discriminate H; clear E
         | match ?x with Pg => _ | Crdb => _ | My => _ | Sp => _ end = _ => destruct x
         end;
  inversion H; reflexivity.
Qed.
Lemma loop_no_comment : forall d srt fuel acc p l, parse_loop d srt fuel acc p = Ok l -> map without_comment acc = acc -> map without_comment l = l.
Proof.
  intros d srt fuel. induction fuel as [|fuel IH]; intros acc p l H A; [discriminate H|]. cbn [parse_loop] in H.
  destruct (eqs (curT p) TOKEN_CREATE).
  - destruct (parseCreate d srt p) as [[s q]| | |] eqn:E; try discriminate H. cbn [bind] in H. destruct (next q) as [q'| | |]; try discriminate H. cbn [bind] in H.
    apply IH in H; [exact H|]. rewrite map_app. cbn [map]. rewrite A, (create_no_comment d srt p s q E). reflexivity.
  - destruct (isin (curT p) _).
    + destruct (next p) as [q| | |]; try discriminate H. cbn [bind] in H. apply IH in H; [exact H|exact A].
    + destruct (eqs (curT p) TOKEN_EOF); [|discriminate H]. inversion H. subst. exact A.
Qed.
Lemma parse_no_comment : forall d srt s l, parse d srt s = Ok l -> map without_comment l = l.
Proof.
  intros d srt s l H. unfold parse, parse_tokens in H. destruct (_ || _); [discriminate H|]. apply (loop_no_comment _ _ _ _ _ _ H). reflexivity.
Qed.

(** Missing for the full property: texts whose schema is not [printable], see below. *)
Theorem C09_normalising_is_idempotent_partial : forall d srt s l, parse d srt s = Ok l -> printable d l = true ->
  (forall t, In (CreateTable t) l -> match d with
     | Crdb | My => forall cs, 12 < List.length cs <= List.length (ct_constraints t) ->
                    forallb (fun c => negb (is_pkey c)) (tl cs) = true -> srt cs = cs
     | _ => True end) ->
  parse d srt (ddl_string d l) = Ok l.
Proof.
  intros d srt s l P H Hs. rewrite (C08_printed_schema_is_read_back_partial d srt l H Hs), (parse_no_comment d srt s l P). reflexivity.
Qed.
Print Assumptions C09_normalising_is_idempotent_partial.

(** Accepted texts whose printed form is rejected. *)
Definition printed_is_rejected (d : dialect) (s : string) : Prop :=
  forall srt, exists l, parse d srt s = Ok l /\ parse d srt (ddl_string d l) = Err.
Theorem C09_column_check_refuted : forall d, d = Pg \/ d = Crdb -> printed_is_rejected d "CREATE TABLE t (a INT CHECK (a > 0), b INT);".
Proof. intros d D srt. destruct D; subst d; eexists; split; reflexivity. Qed.
Print Assumptions C09_column_check_refuted.
Theorem C09_column_foreign_key_with_action_refuted : forall d, d = Pg \/ d = Crdb ->
  printed_is_rejected d "CREATE TABLE t (a INT REFERENCES u (id) ON DELETE CASCADE, b INT);".
Proof. intros d D srt. destruct D; subst d; eexists; split; reflexivity. Qed.
Print Assumptions C09_column_foreign_key_with_action_refuted.
Theorem C09_generated_name_refuted : exists s, forall d, d <> Sp -> d <> Crdb -> printed_is_rejected d (s d).
Proof.
  exists (fun d => match d with My => "CREATE TABLE t (`na me` INT, FOREIGN KEY (`na me`) REFERENCES u (id));"
                   | _ => "CREATE TABLE t (""na me"" INT, n INT, UNIQUE (""na me"", n));" end).
  intros d D1 D2 srt. destruct d; try congruence; eexists; split; reflexivity.
Qed.
Print Assumptions C09_generated_name_refuted.

Example C09_example :
  let s := "create table t (a integer primary key, b text default 'x' unique);" in
  let t := ("CREATE TABLE t (" ++ nl ++ "    a integer," ++ nl ++ "    b text DEFAULT 'x'," ++ nl ++
            "    CONSTRAINT t_pkey PRIMARY KEY (a)," ++ nl ++ "    CONSTRAINT t_unique_b UNIQUE (b)" ++ nl ++ ");" ++ nl)%string in
  exists l, parse Pg id_srt s = Ok l /\ printable Pg l = true /\ ddl_string Pg l = t /\ parse Pg id_srt t = Ok l.
Proof. eexists. repeat split; reflexivity. Qed.
