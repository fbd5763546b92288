(** The walk through the commands in README.md, done in the model: annotated
    sources (docs/sample.go), the generated file, the difference to an empty
    database, the apply, and the edit of the file (docs/diff.sql) with the
    difference to the database made before.  Then the project's integration test
    of diff (pkg/internal/integrationtest/integrationtest_test.go:18-57).  As in
    ConformDiff.v the lines of comment made by an external package are left out of
    the differences. *)
From Verif Require Import GoStr Token Lexer Ast Parser Diff Lines Apply Generate GoTag GoSort ConformDiff PropsLib.

(** docs/sample.go as go/parser and ast.NewCommentMap give it *)
Definition sample_nodes : list cnode :=
  [mkNode [mkType "User" (Some [mkField ["UserID"] (Some "`db:""user_id""  pgddl:""TEXT NOT NULL"" pk:""true""`") "";
      mkField ["Username"] (Some "`db:""username"" pgddl:""TEXT NOT NULL""`") "";
      mkField ["Age"] (Some "`db:""age""      pgddl:""INT  NOT NULL""`") ""])]
     [[mkLine "// User is a user model struct." 3;
       mkLine "//" 4;
       mkLine "//pgddl:table      public.users" 5;
       mkLine "//pgddl:constraint UNIQUE (""username"")" 6;
       mkLine "//pgddl:index      ""index_users_username"" ON public.users (""username"")" 7]];
   mkNode [mkType "Group" (Some [mkField ["GroupID"] (Some "`db:""group_id""    pgddl:""TEXT NOT NULL"" pk:""true""`") "";
      mkField ["GroupName"] (Some "`db:""group_name""  pgddl:""TEXT NOT NULL""`") "";
      mkField ["Description"] (Some "`db:""description"" pgddl:""TEXT NOT NULL""`") ""])]
     [[mkLine "// Group is a group model struct." 14;
       mkLine "//" 15;
       mkLine "//pgddl:table CREATE TABLE IF NOT EXISTS public.groups" 16;
       mkLine "//pgddl:index CREATE UNIQUE INDEX ""index_groups_group_name"" ON public.groups (""group_name"")" 17]]].

(** The file of README.md:114-149 *)
Definition sample_sql : string := "-- Code generated by ddlctl. DO NOT EDIT.
--

-- source: docs/sample.go:5
-- User is a user model struct.
--
-- pgddl:table      public.users
-- pgddl:constraint UNIQUE (""username"")
CREATE TABLE public.users (
    ""user_id""  TEXT NOT NULL,
    ""username"" TEXT NOT NULL,
    ""age""      INT  NOT NULL,
    PRIMARY KEY (""user_id""),
    UNIQUE (""username"")
);

-- source: docs/sample.go:7
-- pgddl:index      ""index_users_username"" ON public.users (""username"")
CREATE INDEX ""index_users_username"" ON public.users (""username"");

-- source: docs/sample.go:16
-- Group is a group model struct.
--
-- pgddl:table CREATE TABLE IF NOT EXISTS public.groups
CREATE TABLE IF NOT EXISTS public.groups (
    ""group_id""    TEXT NOT NULL,
    ""group_name""  TEXT NOT NULL,
    ""description"" TEXT NOT NULL,
    PRIMARY KEY (""group_id"")
);

-- source: docs/sample.go:17
-- pgddl:index CREATE UNIQUE INDEX ""index_groups_group_name"" ON public.groups (""group_name"")
CREATE UNIQUE INDEX ""index_groups_group_name"" ON public.groups (""group_name"");
".

(** README.md:94-149: the file generated is the one shown. *)
Example readme_generate :
  generate (mkSettings "db" "pgddl" "pk") tag_get (fun s => s) (go_order (fun _ _ => 0%nat)) "postgres" "go" (OneFile "docs/sample.go" (Some sample_nodes))
  = Ok sample_sql.
Proof. vm_compute. reflexivity. Qed.

(** README.md:198-219: the difference of an empty database to the file. *)
Definition sample_diff : string := "CREATE TABLE public.users (
    ""user_id"" TEXT NOT NULL,
    ""username"" TEXT NOT NULL,
    ""age"" INT NOT NULL,
    CONSTRAINT users_pkey PRIMARY KEY (""user_id""),
    CONSTRAINT users_unique_username UNIQUE (""username"")
);
CREATE INDEX ""index_users_username"" ON public.users (""username"");
CREATE TABLE IF NOT EXISTS public.groups (
    ""group_id"" TEXT NOT NULL,
    ""group_name"" TEXT NOT NULL,
    ""description"" TEXT NOT NULL,
    CONSTRAINT groups_pkey PRIMARY KEY (""group_id"")
);
CREATE UNIQUE INDEX ""index_groups_group_name"" ON public.groups (""group_name"");
".
Example readme_diff : diff_texts Pg "" sample_sql = Ok sample_diff.
Proof. vm_compute. reflexivity. Qed.

(** README.md:221-257: what apply writes to the terminal, and what it executes,
    when the database is empty and answers every statement without an error. *)
Definition sample_world : world :=
  mkWorld true true "postgres" (fun a => if String.eqb a "sample.sql" then Some sample_sql else Some "")
    (fun _ _ => true) "" (fun _ => true) (fun _ => true) (fun _ _ => None) (fun _ => true) (fun cs => cs) no_comment.
Definition terminal (l : list event) : string := concat_str (map (fun e => match e with EPrint s => s | _ => "" end) l).
Definition statements (l : list event) : list string := flat_map (fun e => match e with EExec s _ => [s] | _ => [] end) l.
Example readme_apply :
  let (evs, o) := apply_command sample_world ["dsn"; "sample.sql"] in
  (terminal evs, o) = ("
ddlctl will exec the following DDL queries:

-- 8< --

CREATE TABLE public.users (
    ""user_id"" TEXT NOT NULL,
    ""username"" TEXT NOT NULL,
    ""age"" INT NOT NULL,
    CONSTRAINT users_pkey PRIMARY KEY (""user_id""),
    CONSTRAINT users_unique_username UNIQUE (""username"")
);
CREATE INDEX ""index_users_username"" ON public.users (""username"");
CREATE TABLE IF NOT EXISTS public.groups (
    ""group_id"" TEXT NOT NULL,
    ""group_name"" TEXT NOT NULL,
    ""description"" TEXT NOT NULL,
    CONSTRAINT groups_pkey PRIMARY KEY (""group_id"")
);
CREATE UNIQUE INDEX ""index_groups_group_name"" ON public.groups (""group_name"");


-- >8 --

Do you want to apply these DDL queries?
  ddlctl will exec the DDL queries described above.
  Only 'yes' will be accepted to approve.

Enter a value: yes (via --auto-approve option)

executing...
done
", Done).
Proof. vm_compute. reflexivity. Qed.
Example readme_executed :
  String.concat "" (map (fun s => s ++ ";" ++ nl)%string (statements (fst (apply_command sample_world ["dsn"; "sample.sql"])))) = sample_diff.
Proof. vm_compute. reflexivity. Qed.

(** docs/diff.sql, the file edited *)
Definition edited_sql : string := "-- Code generated by ddlctl. DO NOT EDIT.
--

-- source: docs/sample.go:5
-- User is a user model struct.
--
-- pgddl:table      public.users
-- pgddl:constraint UNIQUE (""username"")
CREATE TABLE public.users (
    ""user_id""     TEXT NOT NULL,
    ""username""    TEXT NOT NULL,
    ""age""         INT  NOT NULL,
    ""description"" TEXT NOT NULL,
    PRIMARY KEY (""user_id""),
    UNIQUE (""username"")
);

-- source: docs/sample.go:7
-- pgddl:index      ""index_users_username"" ON public.users (""username"")
CREATE INDEX ""index_users_username"" ON public.users (""username"");

-- source: docs/sample.go:16
-- Group is a group model struct.
--
-- pgddl:table CREATE TABLE IF NOT EXISTS public.groups
CREATE TABLE IF NOT EXISTS public.groups (
    ""group_id""    TEXT NOT NULL,
    ""group_name""  TEXT NOT NULL,
    ""description"" TEXT NOT NULL,
    PRIMARY KEY (""group_id"")
);

-- source: docs/sample.go:17
-- pgddl:index CREATE UNIQUE INDEX ""index_groups_group_name"" ON public.groups (""group_name"")
CREATE UNIQUE INDEX ""index_groups_group_name"" ON public.groups (""group_name"");
".

(** README.md:259-297: the difference of the schema made to the edited file. *)
Example readme_edit : diff_texts Pg sample_diff edited_sql = Ok "ALTER TABLE public.users ADD COLUMN ""description"" TEXT NOT NULL;
".
Proof. vm_compute. reflexivity. Qed.

(** pkg/internal/integrationtest/integrationtest_test.go:18-57 *)
Example integration_diff : diff_texts Pg "CREATE TABLE IF NOT EXISTS public.test_groups (
    group_id   UUID NOT NULL,
    group_name TEXT NOT NULL,
    PRIMARY KEY (group_id)
);
CREATE TABLE IF NOT EXISTS public.test_users (
    user_id  UUID NOT NULL,
    name     TEXT NOT NULL,
    group_id UUID NOT NULL,
    PRIMARY KEY (user_id)
);
CREATE INDEX IF NOT EXISTS test_users_idx_on_group_id ON public.test_users (group_id);
" "CREATE TABLE public.test_groups (
    group_id    UUID NOT NULL,
    group_name  TEXT NOT NULL,
    description TEXT NOT NULL,
    PRIMARY KEY (group_id)
);
CREATE TABLE public.test_users (
    user_id  UUID NOT NULL,
    username TEXT NOT NULL,
    group_id UUID NOT NULL,
    PRIMARY KEY (user_id)
);
CREATE INDEX test_users_idx_on_group_id ON public.test_users (group_id);
" = Ok "ALTER TABLE public.test_groups ADD COLUMN description TEXT NOT NULL;
ALTER TABLE public.test_users DROP COLUMN name;
ALTER TABLE public.test_users ADD COLUMN username TEXT NOT NULL;
".
Proof. vm_compute. reflexivity. Qed.
