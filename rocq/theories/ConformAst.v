(** The values and expected texts of the project's own tests of the syntax trees
    (pkg/ddl/*/{ddl,ddl_table,ddl_table_create,ddl_table_drop,ddl_table_alter,
    ddl_index_create,ddl_index_drop}_test.go) and of those cases of diff_test.go that
    start from syntax trees, evaluated in the model.  (The cases of diff_test.go
    that start from texts are in ConformDiff.v.)  The cases with a nil DataType or
    ObjectName are left out: the model has no such value.  As in ConformDiff.v the
    lines of comment, which come from an external package, are removed from the
    results of Diff. *)
From Verif Require Import GoStr Token Lexer Ast Parser Diff ConformDiff.

(** ** pkg/ddl/postgres/ddl_test.go *)

(* TestIdent_String: success *)
Example ddl_Pg_1 : oident_string (Some (mkIdent "users" """" """users"""))
  = """users""".
Proof. vm_compute. reflexivity. Qed.

(* TestIdent_String: success,empty *)
Example ddl_Pg_2 : oident_string None
  = "".
Proof. vm_compute. reflexivity. Qed.

(* TestIdent_StringForDiff: success *)
Example ddl_Pg_3 : oident_diff (Some (mkIdent "users" """" """users"""))
  = "users".
Proof. vm_compute. reflexivity. Qed.

(* TestIdent_StringForDiff: success,empty *)
Example ddl_Pg_4 : oident_diff None
  = "".
Proof. vm_compute. reflexivity. Qed.

(* TestDataType_StringForDiff: success *)
Example ddl_Pg_5 : datatype_diff (mkDT "integer" TOKEN_INTEGER None)
  = TOKEN_INTEGER.
Proof. vm_compute. reflexivity. Qed.

(* TestDataType_StringForDiff: success,TOKEN_ILLEGAL *)
Example ddl_Pg_6 : datatype_diff (mkDT "unknown" TOKEN_ILLEGAL None)
  = TOKEN_ILLEGAL.
Proof. vm_compute. reflexivity. Qed.

(* TestDataType_StringForDiff: success,empty *)
Example ddl_Pg_7 : datatype_diff (mkDT "unknown" "" None)
  = TOKEN_ILLEGAL.
Proof. vm_compute. reflexivity. Qed.

(** ** pkg/ddl/postgres/ddl_table_test.go *)

(* TestPrimaryKeyConstraint: success,PrimaryKeyConstraint *)
Example table_Pg_1 : constraint_string Pg (CPrimary (Some (mkIdent "pk_users" """" """pk_users""")) [(mkCI (mkIdent "id" """" """id""") None)])
  = "CONSTRAINT ""pk_users"" PRIMARY KEY (""id"")".
Proof. vm_compute. reflexivity. Qed.

(* TestPrimaryKeyConstraint: success,PrimaryKeyConstraint,empty *)
Example table_Pg_2 : constraint_string Pg (CPrimary None [])
  = "PRIMARY KEY ()".
Proof. vm_compute. reflexivity. Qed.

(* TestForeignKeyConstraint: success,ForeignKeyConstraint *)
Example table_Pg_3 : constraint_string Pg (CForeign (Some (mkIdent "fk_users_groups" """" """fk_users_groups""")) [(mkCI (mkIdent "group_id" """" """group_id""") None)] (mkIdent "groups" """" """groups""") [(mkCI (mkIdent "id" """" """id""") None)] "ON DELETE NO ACTION")
  = "CONSTRAINT ""fk_users_groups"" FOREIGN KEY (""group_id"") REFERENCES ""groups"" (""id"") ON DELETE NO ACTION".
Proof. vm_compute. reflexivity. Qed.

(* TestForeignKeyConstraint: success,ForeignKeyConstraint *)
Example table_Pg_4 : constraint_diff Pg (CForeign (Some (mkIdent "fk_users_groups" """" """fk_users_groups""")) [(mkCI (mkIdent "group_id" """" """group_id""") None)] (mkIdent "groups" """" """groups""") [(mkCI (mkIdent "id" """" """id""") None)] "ON DELETE NO ACTION")
  = "CONSTRAINT fk_users_groups FOREIGN KEY (group_id) REFERENCES groups (id) ON DELETE NO ACTION".
Proof. vm_compute. reflexivity. Qed.

(* TestUniqueConstraint: success,UniqueConstraint *)
Example table_Pg_5 : constraint_string Pg (CUnique (Some (mkIdent "uq_users_email" """" """uq_users_email""")) [(mkCI (mkIdent "email" """" """email""") None)])
  = "CONSTRAINT ""uq_users_email"" UNIQUE (""email"")".
Proof. vm_compute. reflexivity. Qed.

(* TestCheckConstraint: success,CheckConstraint *)
Example table_Pg_6 : constraint_string Pg (CCheck (Some (mkIdent "users_check_age" """" """users_check_age""")) (Some [(mkIdent "(" "" "("); (mkIdent "age" """" """age"""); (mkIdent ">=" "" ">="); (mkIdent "0" "" "0"); (mkIdent ")" "" ")")]))
  = "CONSTRAINT ""users_check_age"" CHECK (""age"" >= 0)".
Proof. vm_compute. reflexivity. Qed.

(* TestObjectName_StringForDiff: success,ObjectName *)
Example table_Pg_7 : objname_diff (mkON (Some (mkIdent "public" """" """public""")) (mkIdent "users" """" """users"""))
  = "public.users".
Proof. vm_compute. reflexivity. Qed.

(* TestExpr_String: success,String,nil *)
Example table_Pg_8 : default_string Pg None
  = "".
Proof. vm_compute. reflexivity. Qed.

(* TestExpr_String: success,String,nilnil *)
Example table_Pg_9 : default_string Pg (Some None)
  = "".
Proof. vm_compute. reflexivity. Qed.

(* TestExpr_String: success,PlainString,nilnil *)
Example table_Pg_10 : default_diff Pg (Some None)
  = "".
Proof. vm_compute. reflexivity. Qed.

(* TestExpr_String: success,DEFAULT_VALUE *)
Example table_Pg_11 : default_string Pg (Some (Some [(mkIdent "now()" "" "now()")]))
  = "DEFAULT now()".
Proof. vm_compute. reflexivity. Qed.

(* TestExpr_String: success,DEFAULT_VALUE,empty *)
Example table_Pg_12 : expr_string Pg None
  = "".
Proof. vm_compute. reflexivity. Qed.

(* TestExpr_String: success,DEFAULT_EXPR *)
Example table_Pg_13 : default_string Pg (Some (Some [(mkIdent "(" "" "("); (mkIdent "age" "" "age"); (mkIdent ">=" "" ">="); (mkIdent "0" "" "0"); (mkIdent ")" "" ")")]))
  = "DEFAULT (age >= 0)".
Proof. vm_compute. reflexivity. Qed.

(* TestColumn: success,Column *)
Example table_Pg_14 : column_string Pg (mkCol (mkIdent "id" """" """id""") (mkDT "INTEGER" "" None) None false false None None None false "" "" None)
  = """id"" INTEGER".
Proof. vm_compute. reflexivity. Qed.

(* TestOption: success,Option *)
Example table_Pg_15 : option_string Pg (mkOpt "TABLESPACE" (Some [(mkIdent "pg_default" """" """pg_default""")]))
  = "TABLESPACE ""pg_default""".
Proof. vm_compute. reflexivity. Qed.

(* TestOption: success,Option,empty *)
Example table_Pg_16 : option_string Pg (mkOpt "" None)
  = "".
Proof. vm_compute. reflexivity. Qed.

(** ** pkg/ddl/postgres/ddl_table_create_test.go *)

(* TestCreateTableStmt_String: success, *)
Example create_table_Pg_1 : stmt_string Pg (CreateTable (mkCT "test comment content" false (mkON None (mkIdent "test" """" """test""")) [(mkCol (mkIdent "id" "" "id") (mkDT "INTEGER" "" None) None false false None None None false "" "" None); (mkCol (mkIdent "name" "" "name") (mkDT "VARYING" "" (Some [(NewRawIdent Pg "255")])) None false false None None None false "" "" None)] [] [(mkOpt "TABLESPACE" (Some [(mkIdent "default_tablespace" "" "default_tablespace")])); (mkOpt "LIKE" (Some [(mkIdent "parent_test" "" "parent_test")]))] None))
  = "-- test comment content
CREATE TABLE ""test"" (
    id INTEGER,
    name VARYING(255)
)
TABLESPACE default_tablespace,
LIKE parent_test;
".
Proof. vm_compute. reflexivity. Qed.

(* TestCreateTableStmt_GetNameForDiff: success, *)
Example create_table_Pg_2 : stmt_name (CreateTable (mkCT "" false (mkON None (mkIdent "test" """" """test""")) [] [] [] None))
  = "test".
Proof. vm_compute. reflexivity. Qed.

(** ** pkg/ddl/postgres/ddl_table_drop_test.go *)

(* TestDropTableStmt_GetNameForDiff: success, *)
Example drop_table_Pg_1 : stmt_name (DropTable "" false (mkON None (mkIdent "test" """" """test""")))
  = "test".
Proof. vm_compute. reflexivity. Qed.

(* TestDropTableStmt_String: success, *)
Example drop_table_Pg_2 : stmt_string Pg (DropTable "test comment content" true (mkON None (mkIdent "test" """" """test""")))
  = "-- test comment content
DROP TABLE IF EXISTS ""test"";
".
Proof. vm_compute. reflexivity. Qed.

(** ** pkg/ddl/postgres/ddl_table_alter_test.go *)

(* TestAlterTableStmt_String: success,RenameTable *)
Example alter_table_Pg_1 : stmt_string Pg (AlterTable "test comment content" (mkON None (mkIdent "users" """" """users""")) (RenameTable (mkON None (mkIdent "accounts" """" """accounts"""))))
  = "-- test comment content
ALTER TABLE ""users"" RENAME TO ""accounts"";
".
Proof. vm_compute. reflexivity. Qed.

(* TestAlterTableStmt_String: success,RenameColumn *)
Example alter_table_Pg_2 : stmt_string Pg (AlterTable "" (mkON None (mkIdent "users" """" """users""")) (RenameColumn (mkIdent "name" """" """name""") (mkIdent "username" """" """username""")))
  = "ALTER TABLE ""users"" RENAME COLUMN ""name"" TO ""username"";
".
Proof. vm_compute. reflexivity. Qed.

(* TestAlterTableStmt_String: success,RenameConstraint *)
Example alter_table_Pg_3 : stmt_string Pg (AlterTable "" (mkON None (mkIdent "users" """" """users""")) (RenameConstraint (mkIdent "users_pkey" """" """users_pkey""") (mkIdent "users_id_pkey" """" """users_id_pkey""")))
  = "ALTER TABLE ""users"" RENAME CONSTRAINT ""users_pkey"" TO ""users_id_pkey"";
".
Proof. vm_compute. reflexivity. Qed.

(* TestAlterTableStmt_String: success,AddColumn *)
Example alter_table_Pg_4 : stmt_string Pg (AlterTable "" (mkON None (mkIdent "users" """" """users""")) (AddColumn (mkCol (mkIdent "age" """" """age""") (mkDT "INTEGER" "" None) None false false None None None false "" "" None)))
  = "ALTER TABLE ""users"" ADD COLUMN ""age"" INTEGER;
".
Proof. vm_compute. reflexivity. Qed.

(* TestAlterTableStmt_String: success,DropColumn *)
Example alter_table_Pg_5 : stmt_string Pg (AlterTable "" (mkON None (mkIdent "users" """" """users""")) (DropColumn (mkIdent "age" """" """age""")))
  = "ALTER TABLE ""users"" DROP COLUMN ""age"";
".
Proof. vm_compute. reflexivity. Qed.

(* TestAlterTableStmt_String: success,AlterColumnSetDataType *)
Example alter_table_Pg_6 : stmt_string Pg (AlterTable "" (mkON None (mkIdent "users" """" """users""")) (SetDataType (mkIdent "age" """" """age""") (mkDT "INTEGER" "" None)))
  = "ALTER TABLE ""users"" ALTER COLUMN ""age"" SET DATA TYPE INTEGER;
".
Proof. vm_compute. reflexivity. Qed.

(* TestAlterTableStmt_String: success,AlterColumnSetDefault *)
Example alter_table_Pg_7 : stmt_string Pg (AlterTable "" (mkON None (mkIdent "users" """" """users""")) (SetDefault (mkIdent "age" """" """age""") (Some (Some [(mkIdent "0" "" "0")]))))
  = "ALTER TABLE ""users"" ALTER COLUMN ""age"" SET DEFAULT 0;
".
Proof. vm_compute. reflexivity. Qed.

(* TestAlterTableStmt_String: success,AlterColumnDropDefault *)
Example alter_table_Pg_8 : stmt_string Pg (AlterTable "" (mkON None (mkIdent "users" """" """users""")) (DropDefault (mkIdent "age" """" """age""")))
  = "ALTER TABLE ""users"" ALTER COLUMN ""age"" DROP DEFAULT;
".
Proof. vm_compute. reflexivity. Qed.

(* TestAlterTableStmt_String: success,AlterColumnSetNotNull *)
Example alter_table_Pg_9 : stmt_string Pg (AlterTable "" (mkON None (mkIdent "users" """" """users""")) (SetNotNull (mkIdent "age" """" """age""")))
  = "ALTER TABLE ""users"" ALTER COLUMN ""age"" SET NOT NULL;
".
Proof. vm_compute. reflexivity. Qed.

(* TestAlterTableStmt_String: success,AlterColumnDropNotNull *)
Example alter_table_Pg_10 : stmt_string Pg (AlterTable "" (mkON None (mkIdent "users" """" """users""")) (DropNotNull (mkIdent "age" """" """age""")))
  = "ALTER TABLE ""users"" ALTER COLUMN ""age"" DROP NOT NULL;
".
Proof. vm_compute. reflexivity. Qed.

(* TestAlterTableStmt_String: success,AddConstraint *)
Example alter_table_Pg_11 : stmt_string Pg (AlterTable "" (mkON None (mkIdent "groups" """" """groups""")) (AddConstraint (CPrimary (Some (mkIdent "groups_pkey" """" """groups_pkey""")) [(mkCI (mkIdent "id" """" """id""") None)]) false))
  = "ALTER TABLE ""groups"" ADD CONSTRAINT ""groups_pkey"" PRIMARY KEY (""id"");
".
Proof. vm_compute. reflexivity. Qed.

(* TestAlterTableStmt_String: success,DropConstraint *)
Example alter_table_Pg_12 : stmt_string Pg (AlterTable "" (mkON None (mkIdent "groups" """" """groups""")) (DropConstraint (Some (mkIdent "groups_pkey" """" """groups_pkey"""))))
  = "ALTER TABLE ""groups"" DROP CONSTRAINT ""groups_pkey"";
".
Proof. vm_compute. reflexivity. Qed.

(* TestAlterTableStmt_String: success,AlterConstraint,DEFERRABLE *)
Example alter_table_Pg_13 : stmt_string Pg (AlterTable "" (mkON None (mkIdent "groups" """" """groups""")) (AlterConstraint (mkIdent "groups_pkey" """" """groups_pkey""") true true))
  = "ALTER TABLE ""groups"" ALTER CONSTRAINT ""groups_pkey"" DEFERRABLE INITIALLY DEFERRED;
".
Proof. vm_compute. reflexivity. Qed.

(* TestAlterTableStmt_String: success,AlterConstraint,NOT_DEFERRABLE *)
Example alter_table_Pg_14 : stmt_string Pg (AlterTable "" (mkON None (mkIdent "groups" """" """groups""")) (AlterConstraint (mkIdent "groups_pkey" """" """groups_pkey""") false false))
  = "ALTER TABLE ""groups"" ALTER CONSTRAINT ""groups_pkey"" NOT DEFERRABLE INITIALLY IMMEDIATE;
".
Proof. vm_compute. reflexivity. Qed.

(* TestAlterTableStmt_GetNameForDiff *)
Example alter_table_Pg_15 : stmt_name (AlterTable "" (mkON None (mkIdent "users" """" """users""")) DropRowDeletion)
  = "users".
Proof. vm_compute. reflexivity. Qed.

(** ** pkg/ddl/postgres/ddl_index_create_test.go *)

(* TestCreateIndexStmt_GetNameForDiff: success, *)
Example create_index_Pg_1 : stmt_name (CreateIndex (mkCX "" false false (mkON None (mkIdent "test" """" """test""")) (mkON None (mkIdent "" "" "")) [] None [] None))
  = "test".
Proof. vm_compute. reflexivity. Qed.

(* TestCreateIndexStmt_String: success, *)
Example create_index_Pg_2 : stmt_string Pg (CreateIndex (mkCX "test comment content" false true (mkON None (mkIdent "test" """" """test""")) (mkON None (mkIdent "users" """" """users""")) [(mkIdent "btree" "" "btree")] None [(mkCI (mkIdent "id" """" """id""") None)] None))
  = "-- test comment content
CREATE INDEX IF NOT EXISTS ""test"" ON ""users"" USING btree (""id"");
".
Proof. vm_compute. reflexivity. Qed.

(** ** pkg/ddl/postgres/ddl_index_drop_test.go *)

(* TestDropIndexStmt_GetNameForDiff: success, *)
Example drop_index_Pg_1 : stmt_name (DropIndex "" false (mkON None (mkIdent "test" """" """test""")))
  = "test".
Proof. vm_compute. reflexivity. Qed.

(* TestDropIndexStmt_String: success, *)
Example drop_index_Pg_2 : stmt_string Pg (DropIndex "test comment content" true (mkON None (mkIdent "test" """" """test""")))
  = "-- test comment content
DROP INDEX IF EXISTS ""test"";
".
Proof. vm_compute. reflexivity. Qed.

(** ** pkg/ddl/postgres/diff_test.go *)

(* TestDiff: failure,ddl.ErrNoDifference *)
Example diff_Pg_1 : diff Pg (fun cs => cs) no_comment (Some []) (Some [])
  = DNoDiff.
Proof. vm_compute. reflexivity. Qed.

(* TestDiff: failure,ddl.ErrNotSupported,DropTableStmt *)
Example diff_Pg_2 : diff Pg (fun cs => cs) no_comment (Some [(DropTable "" false (mkON None (mkIdent "table_name" "" "table_name")))]) None
  = DNotSupported.
Proof. vm_compute. reflexivity. Qed.

(* TestDiff: failure,ddl.ErrNotSupported,DropTableStmt *)
Example diff_Pg_3 : diff Pg (fun cs => cs) no_comment (Some [(DropTable "" false (mkON None (mkIdent "table_name" "" "table_name")))]) (Some [])
  = DNotSupported.
Proof. vm_compute. reflexivity. Qed.

(* TestDiff: failure,ddl.ErrNotSupported,DropTableStmt *)
Example diff_Pg_4 : diff Pg (fun cs => cs) no_comment (Some []) (Some [(DropTable "" false (mkON None (mkIdent "table_name" "" "table_name")))])
  = DNotSupported.
Proof. vm_compute. reflexivity. Qed.

(* TestDiff: success,after *)
Example diff_Pg_5 : diff Pg (fun cs => cs) no_comment None (Some [(CreateTable (mkCT "" false (mkON None (mkIdent "table_name" "" "table_name")) [(mkCol (mkIdent "column_name" "" "column_name") (mkDT "STRING" "" None) None true false None None None false "" "" None)] [(CPrimary None [(mkCI (mkIdent "column_name" "" "column_name") None)])] [] None))])
  = match (Some [(CreateTable (mkCT "" false (mkON None (mkIdent "table_name" "" "table_name")) [(mkCol (mkIdent "column_name" "" "column_name") (mkDT "STRING" "" None) None true false None None None false "" "" None)] [(CPrimary None [(mkCI (mkIdent "column_name" "" "column_name") None)])] [] None))]) with Some l => DOk l | None => DNoDiff end.
Proof. vm_compute. reflexivity. Qed.

(* TestDiff: success,after *)
Example diff_Pg_6 : dres_string Pg (diff Pg (fun cs => cs) no_comment None (Some [(CreateTable (mkCT "" false (mkON None (mkIdent "table_name" "" "table_name")) [(mkCol (mkIdent "column_name" "" "column_name") (mkDT "STRING" "" None) None true false None None None false "" "" None)] [(CPrimary None [(mkCI (mkIdent "column_name" "" "column_name") None)])] [] None))]))
  = Ok "CREATE TABLE table_name (
    column_name STRING NOT NULL,
    PRIMARY KEY (column_name)
);
".
Proof. vm_compute. reflexivity. Qed.

(* TestDiff: success,before,nil,Table *)
Example diff_Pg_7 : diff Pg (fun cs => cs) no_comment (Some [(CreateTable (mkCT "" false (mkON (Some (mkIdent "public" "" "public")) (mkIdent "table_name" "" "table_name")) [(mkCol (mkIdent "column_name" "" "column_name") (mkDT "" "" None) None false false None None None false "" "" None)] [] [] None))]) None
  = match (Some [(DropTable "" false (mkON (Some (mkIdent "public" "" "public")) (mkIdent "table_name" "" "table_name")))]) with Some l => DOk l | None => DNoDiff end.
Proof. vm_compute. reflexivity. Qed.

(* TestDiff: success,before,nil,Table *)
Example diff_Pg_8 : dres_string Pg (diff Pg (fun cs => cs) no_comment (Some [(CreateTable (mkCT "" false (mkON (Some (mkIdent "public" "" "public")) (mkIdent "table_name" "" "table_name")) [(mkCol (mkIdent "column_name" "" "column_name") (mkDT "" "" None) None false false None None None false "" "" None)] [] [] None))]) None)
  = Ok "DROP TABLE public.table_name;
".
Proof. vm_compute. reflexivity. Qed.

(* TestDiff: success,before,Table *)
Example diff_Pg_9 : diff Pg (fun cs => cs) no_comment (Some [(CreateTable (mkCT "" false (mkON None (mkIdent "table_name" "" "table_name")) [(mkCol (mkIdent "column_name" "" "column_name") (mkDT "" "" None) None false false None None None false "" "" None)] [] [] None))]) (Some [])
  = match (Some [(DropTable "" false (mkON None (mkIdent "table_name" "" "table_name")))]) with Some l => DOk l | None => DNoDiff end.
Proof. vm_compute. reflexivity. Qed.

(* TestDiff: success,before,Table *)
Example diff_Pg_10 : dres_string Pg (diff Pg (fun cs => cs) no_comment (Some [(CreateTable (mkCT "" false (mkON None (mkIdent "table_name" "" "table_name")) [(mkCol (mkIdent "column_name" "" "column_name") (mkDT "" "" None) None false false None None None false "" "" None)] [] [] None))]) (Some []))
  = Ok "DROP TABLE table_name;
".
Proof. vm_compute. reflexivity. Qed.

(* TestDiff: success,before,nil,Index *)
Example diff_Pg_11 : diff Pg (fun cs => cs) no_comment (Some [(CreateIndex (mkCX "" false false (mkON None (mkIdent "table_name_idx_column_name" "" "table_name_idx_column_name")) (mkON None (mkIdent "" "" "")) [] None [(mkCI (mkIdent "column_name" "" "column_name") None)] None))]) None
  = match (Some [(DropIndex "" false (mkON None (mkIdent "table_name_idx_column_name" "" "table_name_idx_column_name")))]) with Some l => DOk l | None => DNoDiff end.
Proof. vm_compute. reflexivity. Qed.

(* TestDiff: success,before,nil,Index *)
Example diff_Pg_12 : dres_string Pg (diff Pg (fun cs => cs) no_comment (Some [(CreateIndex (mkCX "" false false (mkON None (mkIdent "table_name_idx_column_name" "" "table_name_idx_column_name")) (mkON None (mkIdent "" "" "")) [] None [(mkCI (mkIdent "column_name" "" "column_name") None)] None))]) None)
  = Ok "DROP INDEX table_name_idx_column_name;
".
Proof. vm_compute. reflexivity. Qed.

(* TestDiff: success,before,Index *)
Example diff_Pg_13 : diff Pg (fun cs => cs) no_comment (Some [(CreateIndex (mkCX "" false false (mkON None (mkIdent "table_name_idx_column_name" "" "table_name_idx_column_name")) (mkON None (mkIdent "" "" "")) [] None [(mkCI (mkIdent "column_name" "" "column_name") None)] None))]) (Some [])
  = match (Some [(DropIndex "" false (mkON None (mkIdent "table_name_idx_column_name" "" "table_name_idx_column_name")))]) with Some l => DOk l | None => DNoDiff end.
Proof. vm_compute. reflexivity. Qed.

(* TestDiff: success,before,Index *)
Example diff_Pg_14 : dres_string Pg (diff Pg (fun cs => cs) no_comment (Some [(CreateIndex (mkCX "" false false (mkON None (mkIdent "table_name_idx_column_name" "" "table_name_idx_column_name")) (mkON None (mkIdent "" "" "")) [] None [(mkCI (mkIdent "column_name" "" "column_name") None)] None))]) (Some []))
  = Ok "DROP INDEX table_name_idx_column_name;
".
Proof. vm_compute. reflexivity. Qed.

(* TestDiff: success,before,Table *)
Example diff_Pg_15 : diff Pg (fun cs => cs) no_comment (Some []) (Some [(CreateTable (mkCT "" false (mkON (Some (mkIdent "public" "" "public")) (mkIdent "table_name" "" "table_name")) [(mkCol (mkIdent "column_name" "" "column_name") (mkDT "STRING" "" None) None true false None None None false "" "" None)] [(CPrimary None [(mkCI (mkIdent "column_name" "" "column_name") None)])] [] None))])
  = match (Some [(CreateTable (mkCT "" false (mkON (Some (mkIdent "public" "" "public")) (mkIdent "table_name" "" "table_name")) [(mkCol (mkIdent "column_name" "" "column_name") (mkDT "STRING" "" None) None true false None None None false "" "" None)] [(CPrimary None [(mkCI (mkIdent "column_name" "" "column_name") None)])] [] None))]) with Some l => DOk l | None => DNoDiff end.
Proof. vm_compute. reflexivity. Qed.

(* TestDiff: success,before,Table *)
Example diff_Pg_16 : dres_string Pg (diff Pg (fun cs => cs) no_comment (Some []) (Some [(CreateTable (mkCT "" false (mkON (Some (mkIdent "public" "" "public")) (mkIdent "table_name" "" "table_name")) [(mkCol (mkIdent "column_name" "" "column_name") (mkDT "STRING" "" None) None true false None None None false "" "" None)] [(CPrimary None [(mkCI (mkIdent "column_name" "" "column_name") None)])] [] None))]))
  = Ok "CREATE TABLE public.table_name (
    column_name STRING NOT NULL,
    PRIMARY KEY (column_name)
);
".
Proof. vm_compute. reflexivity. Qed.

(** ** pkg/ddl/cockroachdb/ddl_test.go *)

(* TestIdent_String: success *)
Example ddl_Crdb_1 : oident_string (Some (mkIdent "users" """" """users"""))
  = """users""".
Proof. vm_compute. reflexivity. Qed.

(* TestIdent_String: success,empty *)
Example ddl_Crdb_2 : oident_string None
  = "".
Proof. vm_compute. reflexivity. Qed.

(* TestIdent_StringForDiff: success *)
Example ddl_Crdb_3 : oident_diff (Some (mkIdent "users" """" """users"""))
  = "users".
Proof. vm_compute. reflexivity. Qed.

(* TestIdent_StringForDiff: success,empty *)
Example ddl_Crdb_4 : oident_diff None
  = "".
Proof. vm_compute. reflexivity. Qed.

(* TestDataType_StringForDiff: success *)
Example ddl_Crdb_5 : datatype_diff (mkDT "integer" TOKEN_INT4 (Some []))
  = TOKEN_INT4.
Proof. vm_compute. reflexivity. Qed.

(* TestDataType_StringForDiff: success,TOKEN_ILLEGAL *)
Example ddl_Crdb_6 : datatype_diff (mkDT "unknown" TOKEN_ILLEGAL (Some []))
  = TOKEN_ILLEGAL.
Proof. vm_compute. reflexivity. Qed.

(* TestDataType_StringForDiff: success,empty *)
Example ddl_Crdb_7 : datatype_diff (mkDT "unknown" "" (Some []))
  = TOKEN_ILLEGAL.
Proof. vm_compute. reflexivity. Qed.

(** ** pkg/ddl/cockroachdb/ddl_table_test.go *)

(* TestPrimaryKeyConstraint: success,PrimaryKeyConstraint *)
Example table_Crdb_1 : constraint_string Crdb (CPrimary (Some (mkIdent "pk_users" """" """pk_users""")) [(mkCI (mkIdent "id" """" """id""") None)])
  = "CONSTRAINT ""pk_users"" PRIMARY KEY (""id"")".
Proof. vm_compute. reflexivity. Qed.

(* TestPrimaryKeyConstraint: success,PrimaryKeyConstraint,empty *)
Example table_Crdb_2 : constraint_string Crdb (CPrimary None [])
  = "PRIMARY KEY ()".
Proof. vm_compute. reflexivity. Qed.

(* TestForeignKeyConstraint: success,ForeignKeyConstraint *)
Example table_Crdb_3 : constraint_string Crdb (CForeign (Some (mkIdent "fk_users_groups" """" """fk_users_groups""")) [(mkCI (mkIdent "group_id" """" """group_id""") None)] (mkIdent "groups" """" """groups""") [(mkCI (mkIdent "id" """" """id""") None)] "ON DELETE NO ACTION")
  = "CONSTRAINT ""fk_users_groups"" FOREIGN KEY (""group_id"") REFERENCES ""groups"" (""id"") ON DELETE NO ACTION".
Proof. vm_compute. reflexivity. Qed.

(* TestForeignKeyConstraint: success,ForeignKeyConstraint *)
Example table_Crdb_4 : constraint_diff Crdb (CForeign (Some (mkIdent "fk_users_groups" """" """fk_users_groups""")) [(mkCI (mkIdent "group_id" """" """group_id""") None)] (mkIdent "groups" """" """groups""") [(mkCI (mkIdent "id" """" """id""") None)] "ON DELETE NO ACTION")
  = "CONSTRAINT fk_users_groups FOREIGN KEY (group_id ASC) REFERENCES groups (id ASC) ON DELETE NO ACTION".
Proof. vm_compute. reflexivity. Qed.

(* TestUniqueConstraint: success,UniqueConstraint *)
Example table_Crdb_5 : constraint_string Crdb (CIndex (Some (mkIdent "uq_users_email" """" """uq_users_email""")) true None [(mkCI (mkIdent "email" """" """email""") None)] None)
  = "UNIQUE INDEX ""uq_users_email"" (""email"")".
Proof. vm_compute. reflexivity. Qed.

(* TestCheckConstraint: success,CheckConstraint *)
Example table_Crdb_6 : constraint_string Crdb (CCheck (Some (mkIdent "users_check_age" """" """users_check_age""")) (Some [(mkIdent "(" "" "("); (mkIdent "age" """" """age"""); (mkIdent ">=" "" ">="); (mkIdent "0" "" "0"); (mkIdent ")" "" ")")]))
  = "CONSTRAINT ""users_check_age"" CHECK (""age"" >= 0)".
Proof. vm_compute. reflexivity. Qed.

(* TestObjectName_StringForDiff: success,ObjectName *)
Example table_Crdb_7 : objname_diff (mkON (Some (mkIdent "public" """" """public""")) (mkIdent "users" """" """users"""))
  = "public.users".
Proof. vm_compute. reflexivity. Qed.

(* TestExpr_String: success,String,nil *)
Example table_Crdb_8 : default_string Crdb None
  = "".
Proof. vm_compute. reflexivity. Qed.

(* TestExpr_String: success,String,nilnil *)
Example table_Crdb_9 : default_string Crdb (Some None)
  = "".
Proof. vm_compute. reflexivity. Qed.

(* TestExpr_String: success,PlainString,nilnil *)
Example table_Crdb_10 : default_diff Crdb (Some None)
  = "".
Proof. vm_compute. reflexivity. Qed.

(* TestExpr_String: success,DEFAULT_VALUE *)
Example table_Crdb_11 : default_string Crdb (Some (Some [(mkIdent "now()" "" "now()")]))
  = "DEFAULT now()".
Proof. vm_compute. reflexivity. Qed.

(* TestExpr_String: success,DEFAULT_VALUE,empty *)
Example table_Crdb_12 : expr_string Crdb None
  = "".
Proof. vm_compute. reflexivity. Qed.

(* TestExpr_String: success,DEFAULT_EXPR *)
Example table_Crdb_13 : default_string Crdb (Some (Some [(mkIdent "(" "" "("); (mkIdent "age" "" "age"); (mkIdent ">=" "" ">="); (mkIdent "0" "" "0"); (mkIdent ")" "" ")")]))
  = "DEFAULT (age >= 0)".
Proof. vm_compute. reflexivity. Qed.

(* TestColumn: success,Column *)
Example table_Crdb_14 : column_string Crdb (mkCol (mkIdent "id" """" """id""") (mkDT "INTEGER" "" None) None false false None None None false "" "" None)
  = """id"" INTEGER".
Proof. vm_compute. reflexivity. Qed.

(* TestOption: success,Option *)
Example table_Crdb_15 : option_string Crdb (mkOpt "TABLESPACE" (Some [(mkIdent "pg_default" """" """pg_default""")]))
  = "TABLESPACE ""pg_default""".
Proof. vm_compute. reflexivity. Qed.

(* TestOption: success,Option,empty *)
Example table_Crdb_16 : option_string Crdb (mkOpt "" None)
  = "".
Proof. vm_compute. reflexivity. Qed.

(** ** pkg/ddl/cockroachdb/ddl_table_create_test.go *)

(* TestCreateTableStmt_String: success, *)
Example create_table_Crdb_1 : stmt_string Crdb (CreateTable (mkCT "test comment content" false (mkON None (mkIdent "test" "" "test")) [(mkCol (mkIdent "id" "" "id") (mkDT "INTEGER" "" None) None false false None None None false "" "" None); (mkCol (mkIdent "name" "" "name") (mkDT "VARYING" "" (Some [(NewRawIdent Crdb "255")])) None false false None None None false "" "" None)] [] [(mkOpt "TABLESPACE" (Some [(mkIdent "default_tablespace" "" "default_tablespace")])); (mkOpt "LIKE" (Some [(mkIdent "parent_test" "" "parent_test")]))] None))
  = "-- test comment content
CREATE TABLE test (
    id INTEGER,
    name VARYING(255)
)
TABLESPACE default_tablespace,
LIKE parent_test;
".
Proof. vm_compute. reflexivity. Qed.

(* TestCreateTableStmt_GetNameForDiff: success, *)
Example create_table_Crdb_2 : stmt_name (CreateTable (mkCT "" false (mkON None (mkIdent "test" """" """test""")) [] [] [] None))
  = "test".
Proof. vm_compute. reflexivity. Qed.

(** ** pkg/ddl/cockroachdb/ddl_table_drop_test.go *)

(* TestDropTableStmt_GetNameForDiff: success, *)
Example drop_table_Crdb_1 : stmt_name (DropTable "" false (mkON None (mkIdent "test" """" """test""")))
  = "test".
Proof. vm_compute. reflexivity. Qed.

(* TestDropTableStmt_String: success, *)
Example drop_table_Crdb_2 : stmt_string Crdb (DropTable "test comment content" true (mkON None (mkIdent "test" "" "test")))
  = "-- test comment content
DROP TABLE IF EXISTS test;
".
Proof. vm_compute. reflexivity. Qed.

(** ** pkg/ddl/cockroachdb/ddl_table_alter_test.go *)

(* TestAlterTableStmt_String: success,RenameTable *)
Example alter_table_Crdb_1 : stmt_string Crdb (AlterTable "" (mkON None (mkIdent "users" """" """users""")) (RenameTable (mkON None (mkIdent "accounts" """" """accounts"""))))
  = "ALTER TABLE ""users"" RENAME TO ""accounts"";
".
Proof. vm_compute. reflexivity. Qed.

(* TestAlterTableStmt_String: success,RenameColumn *)
Example alter_table_Crdb_2 : stmt_string Crdb (AlterTable "" (mkON None (mkIdent "users" """" """users""")) (RenameColumn (mkIdent "name" """" """name""") (mkIdent "username" """" """username""")))
  = "ALTER TABLE ""users"" RENAME COLUMN ""name"" TO ""username"";
".
Proof. vm_compute. reflexivity. Qed.

(* TestAlterTableStmt_String: success,RenameConstraint *)
Example alter_table_Crdb_3 : stmt_string Crdb (AlterTable "" (mkON None (mkIdent "users" """" """users""")) (RenameConstraint (mkIdent "users_pkey" """" """users_pkey""") (mkIdent "users_id_pkey" """" """users_id_pkey""")))
  = "ALTER TABLE ""users"" RENAME CONSTRAINT ""users_pkey"" TO ""users_id_pkey"";
".
Proof. vm_compute. reflexivity. Qed.

(* TestAlterTableStmt_String: success,AddColumn *)
Example alter_table_Crdb_4 : stmt_string Crdb (AlterTable "" (mkON None (mkIdent "users" """" """users""")) (AddColumn (mkCol (mkIdent "age" """" """age""") (mkDT "INTEGER" "" None) None false false None None None false "" "" None)))
  = "ALTER TABLE ""users"" ADD COLUMN ""age"" INTEGER;
".
Proof. vm_compute. reflexivity. Qed.

(* TestAlterTableStmt_String: success,DropColumn *)
Example alter_table_Crdb_5 : stmt_string Crdb (AlterTable "" (mkON None (mkIdent "users" """" """users""")) (DropColumn (mkIdent "age" """" """age""")))
  = "ALTER TABLE ""users"" DROP COLUMN ""age"";
".
Proof. vm_compute. reflexivity. Qed.

(* TestAlterTableStmt_String: success,AlterColumnSetDataType *)
Example alter_table_Crdb_6 : stmt_string Crdb (AlterTable "" (mkON None (mkIdent "users" """" """users""")) (SetDataType (mkIdent "age" """" """age""") (mkDT "INTEGER" "" None)))
  = "ALTER TABLE ""users"" ALTER COLUMN ""age"" SET DATA TYPE INTEGER;
".
Proof. vm_compute. reflexivity. Qed.

(* TestAlterTableStmt_String: success,AlterColumnSetDefault *)
Example alter_table_Crdb_7 : stmt_string Crdb (AlterTable "" (mkON None (mkIdent "users" """" """users""")) (SetDefault (mkIdent "age" """" """age""") (Some (Some [(mkIdent "0" "" "0")]))))
  = "ALTER TABLE ""users"" ALTER COLUMN ""age"" SET DEFAULT 0;
".
Proof. vm_compute. reflexivity. Qed.

(* TestAlterTableStmt_String: success,AlterColumnDropDefault *)
Example alter_table_Crdb_8 : stmt_string Crdb (AlterTable "" (mkON None (mkIdent "users" """" """users""")) (DropDefault (mkIdent "age" """" """age""")))
  = "ALTER TABLE ""users"" ALTER COLUMN ""age"" DROP DEFAULT;
".
Proof. vm_compute. reflexivity. Qed.

(* TestAlterTableStmt_String: success,AlterColumnSetNotNull *)
Example alter_table_Crdb_9 : stmt_string Crdb (AlterTable "" (mkON None (mkIdent "users" """" """users""")) (SetNotNull (mkIdent "age" """" """age""")))
  = "ALTER TABLE ""users"" ALTER COLUMN ""age"" SET NOT NULL;
".
Proof. vm_compute. reflexivity. Qed.

(* TestAlterTableStmt_String: success,AlterColumnDropNotNull *)
Example alter_table_Crdb_10 : stmt_string Crdb (AlterTable "" (mkON None (mkIdent "users" """" """users""")) (DropNotNull (mkIdent "age" """" """age""")))
  = "ALTER TABLE ""users"" ALTER COLUMN ""age"" DROP NOT NULL;
".
Proof. vm_compute. reflexivity. Qed.

(* TestAlterTableStmt_String: success,AddConstraint *)
Example alter_table_Crdb_11 : stmt_string Crdb (AlterTable "" (mkON None (mkIdent "groups" """" """groups""")) (AddConstraint (CPrimary (Some (mkIdent "groups_pkey" """" """groups_pkey""")) [(mkCI (mkIdent "id" """" """id""") None)]) false))
  = "ALTER TABLE ""groups"" ADD CONSTRAINT ""groups_pkey"" PRIMARY KEY (""id"");
".
Proof. vm_compute. reflexivity. Qed.

(* TestAlterTableStmt_String: success,DropConstraint *)
Example alter_table_Crdb_12 : stmt_string Crdb (AlterTable "" (mkON None (mkIdent "groups" """" """groups""")) (DropConstraint (Some (mkIdent "groups_pkey" """" """groups_pkey"""))))
  = "ALTER TABLE ""groups"" DROP CONSTRAINT ""groups_pkey"";
".
Proof. vm_compute. reflexivity. Qed.

(* TestAlterTableStmt_String: success,AlterConstraint,DEFERRABLE *)
Example alter_table_Crdb_13 : stmt_string Crdb (AlterTable "" (mkON None (mkIdent "groups" """" """groups""")) (AlterConstraint (mkIdent "groups_pkey" """" """groups_pkey""") true true))
  = "ALTER TABLE ""groups"" ALTER CONSTRAINT ""groups_pkey"" DEFERRABLE INITIALLY DEFERRED;
".
Proof. vm_compute. reflexivity. Qed.

(* TestAlterTableStmt_String: success,AlterConstraint,NOT_DEFERRABLE *)
Example alter_table_Crdb_14 : stmt_string Crdb (AlterTable "" (mkON None (mkIdent "groups" """" """groups""")) (AlterConstraint (mkIdent "groups_pkey" """" """groups_pkey""") false false))
  = "ALTER TABLE ""groups"" ALTER CONSTRAINT ""groups_pkey"" NOT DEFERRABLE INITIALLY IMMEDIATE;
".
Proof. vm_compute. reflexivity. Qed.

(* TestAlterTableStmt_GetNameForDiff *)
Example alter_table_Crdb_15 : stmt_name (AlterTable "" (mkON None (mkIdent "users" """" """users""")) DropRowDeletion)
  = "users".
Proof. vm_compute. reflexivity. Qed.

(** ** pkg/ddl/cockroachdb/ddl_index_create_test.go *)

(* TestCreateIndexStmt_GetNameForDiff: success, *)
Example create_index_Crdb_1 : stmt_name (CreateIndex (mkCX "" false false (mkON None (mkIdent "test" """" """test""")) (mkON None (mkIdent "" "" "")) [] None [] None))
  = "test".
Proof. vm_compute. reflexivity. Qed.

(* TestCreateIndexStmt_String: success, *)
Example create_index_Crdb_2 : stmt_string Crdb (CreateIndex (mkCX "test comment content" false true (mkON None (mkIdent "test" """" """test""")) (mkON None (mkIdent "users" """" """users""")) [] (Some (mkUsing (Some [(mkIdent "btree" "" "btree")]) None)) [(mkCI (mkIdent "id" """" """id""") (Some false))] None))
  = "-- test comment content
CREATE INDEX IF NOT EXISTS ""test"" ON ""users"" USING btree (""id"" ASC);
".
Proof. vm_compute. reflexivity. Qed.

(** ** pkg/ddl/cockroachdb/ddl_index_drop_test.go *)

(* TestDropIndexStmt_GetNameForDiff: success, *)
Example drop_index_Crdb_1 : stmt_name (DropIndex "" false (mkON None (mkIdent "test" """" """test""")))
  = "test".
Proof. vm_compute. reflexivity. Qed.

(* TestDropIndexStmt_String: success, *)
Example drop_index_Crdb_2 : stmt_string Crdb (DropIndex "test comment content" true (mkON None (mkIdent "test" """" """test""")))
  = "-- test comment content
DROP INDEX IF EXISTS ""test"";
".
Proof. vm_compute. reflexivity. Qed.

(** ** pkg/ddl/cockroachdb/diff_test.go *)

(* TestDiff: failure,ddl.ErrNoDifference *)
Example diff_Crdb_1 : diff Crdb (fun cs => cs) no_comment (Some []) (Some [])
  = DNoDiff.
Proof. vm_compute. reflexivity. Qed.

(* TestDiff: failure,ddl.ErrNotSupported,DropTableStmt *)
Example diff_Crdb_2 : diff Crdb (fun cs => cs) no_comment (Some [(DropTable "" false (mkON None (mkIdent "table_name" "" "table_name")))]) None
  = DNotSupported.
Proof. vm_compute. reflexivity. Qed.

(* TestDiff: failure,ddl.ErrNotSupported,DropTableStmt *)
Example diff_Crdb_3 : diff Crdb (fun cs => cs) no_comment (Some [(DropTable "" false (mkON None (mkIdent "table_name" "" "table_name")))]) (Some [])
  = DNotSupported.
Proof. vm_compute. reflexivity. Qed.

(* TestDiff: failure,ddl.ErrNotSupported,DropTableStmt *)
Example diff_Crdb_4 : diff Crdb (fun cs => cs) no_comment (Some []) (Some [(DropTable "" false (mkON None (mkIdent "table_name" "" "table_name")))])
  = DNotSupported.
Proof. vm_compute. reflexivity. Qed.

(* TestDiff: success,after *)
Example diff_Crdb_5 : dres_string Crdb (diff Crdb (fun cs => cs) no_comment None (Some [(CreateTable (mkCT "" false (mkON None (mkIdent "table_name" "" "table_name")) [(mkCol (mkIdent "column_name" "" "column_name") (mkDT "STRING" "" None) None true false None None None false "" "" None)] [(CPrimary None [(mkCI (mkIdent "column_name" "" "column_name") None)])] [] None))]))
  = Ok "CREATE TABLE table_name (
    column_name STRING NOT NULL,
    PRIMARY KEY (column_name)
);
".
Proof. vm_compute. reflexivity. Qed.

(* TestDiff: success,before,nil,Table *)
Example diff_Crdb_6 : dres_string Crdb (diff Crdb (fun cs => cs) no_comment (Some [(CreateTable (mkCT "" false (mkON (Some (mkIdent "public" "" "public")) (mkIdent "table_name" "" "table_name")) [(mkCol (mkIdent "column_name" "" "column_name") (mkDT "" "" None) None false false None None None false "" "" None)] [] [] None))]) None)
  = Ok "DROP TABLE public.table_name;
".
Proof. vm_compute. reflexivity. Qed.

(* TestDiff: success,before,Table *)
Example diff_Crdb_7 : dres_string Crdb (diff Crdb (fun cs => cs) no_comment (Some [(CreateTable (mkCT "" false (mkON None (mkIdent "table_name" "" "table_name")) [(mkCol (mkIdent "column_name" "" "column_name") (mkDT "" "" None) None false false None None None false "" "" None)] [] [] None))]) (Some []))
  = Ok "DROP TABLE table_name;
".
Proof. vm_compute. reflexivity. Qed.

(* TestDiff: success,before,nil,Index *)
Example diff_Crdb_8 : diff Crdb (fun cs => cs) no_comment (Some [(CreateIndex (mkCX "" false false (mkON None (mkIdent "table_name_idx_column_name" "" "table_name_idx_column_name")) (mkON None (mkIdent "" "" "")) [] None [(mkCI (mkIdent "column_name" "" "column_name") None)] None))]) None
  = match (Some [(DropIndex "" false (mkON None (mkIdent "table_name_idx_column_name" "" "table_name_idx_column_name")))]) with Some l => DOk l | None => DNoDiff end.
Proof. vm_compute. reflexivity. Qed.

(* TestDiff: success,before,nil,Index *)
Example diff_Crdb_9 : dres_string Crdb (diff Crdb (fun cs => cs) no_comment (Some [(CreateIndex (mkCX "" false false (mkON None (mkIdent "table_name_idx_column_name" "" "table_name_idx_column_name")) (mkON None (mkIdent "" "" "")) [] None [(mkCI (mkIdent "column_name" "" "column_name") None)] None))]) None)
  = Ok "DROP INDEX table_name_idx_column_name;
".
Proof. vm_compute. reflexivity. Qed.

(* TestDiff: success,before,Index *)
Example diff_Crdb_10 : diff Crdb (fun cs => cs) no_comment (Some [(CreateIndex (mkCX "" false false (mkON None (mkIdent "table_name_idx_column_name" "" "table_name_idx_column_name")) (mkON None (mkIdent "" "" "")) [] None [(mkCI (mkIdent "column_name" "" "column_name") None)] None))]) (Some [])
  = match (Some [(DropIndex "" false (mkON None (mkIdent "table_name_idx_column_name" "" "table_name_idx_column_name")))]) with Some l => DOk l | None => DNoDiff end.
Proof. vm_compute. reflexivity. Qed.

(* TestDiff: success,before,Index *)
Example diff_Crdb_11 : dres_string Crdb (diff Crdb (fun cs => cs) no_comment (Some [(CreateIndex (mkCX "" false false (mkON None (mkIdent "table_name_idx_column_name" "" "table_name_idx_column_name")) (mkON None (mkIdent "" "" "")) [] None [(mkCI (mkIdent "column_name" "" "column_name") None)] None))]) (Some []))
  = Ok "DROP INDEX table_name_idx_column_name;
".
Proof. vm_compute. reflexivity. Qed.

(* TestDiff: success,before,Table *)
Example diff_Crdb_12 : dres_string Crdb (diff Crdb (fun cs => cs) no_comment (Some []) (Some [(CreateTable (mkCT "" false (mkON (Some (mkIdent "public" "" "public")) (mkIdent "table_name" "" "table_name")) [(mkCol (mkIdent "column_name" "" "column_name") (mkDT "STRING" "" None) None true false None None None false "" "" None)] [(CPrimary None [(mkCI (mkIdent "column_name" "" "column_name") None)])] [] None))]))
  = Ok "CREATE TABLE public.table_name (
    column_name STRING NOT NULL,
    PRIMARY KEY (column_name)
);
".
Proof. vm_compute. reflexivity. Qed.

(* TestDiff: success,before,Index *)
Example diff_Crdb_13 : diff Crdb (fun cs => cs) no_comment (Some []) (Some [(CreateIndex (mkCX "" false false (mkON None (mkIdent "table_name_idx_column_name" "" "table_name_idx_column_name")) (mkON (Some (mkIdent "public" "" "public")) (mkIdent "table_name" "" "table_name")) [] None [(mkCI (mkIdent "column_name" "" "column_name") None)] None))])
  = match (Some [(CreateIndex (mkCX "" false false (mkON None (mkIdent "table_name_idx_column_name" "" "table_name_idx_column_name")) (mkON (Some (mkIdent "public" "" "public")) (mkIdent "table_name" "" "table_name")) [] None [(mkCI (mkIdent "column_name" "" "column_name") None)] None))]) with Some l => DOk l | None => DNoDiff end.
Proof. vm_compute. reflexivity. Qed.

(* TestDiff: success,before,Index *)
Example diff_Crdb_14 : dres_string Crdb (diff Crdb (fun cs => cs) no_comment (Some []) (Some [(CreateIndex (mkCX "" false false (mkON None (mkIdent "table_name_idx_column_name" "" "table_name_idx_column_name")) (mkON (Some (mkIdent "public" "" "public")) (mkIdent "table_name" "" "table_name")) [] None [(mkCI (mkIdent "column_name" "" "column_name") None)] None))]))
  = Ok "CREATE INDEX table_name_idx_column_name ON public.table_name (column_name);
".
Proof. vm_compute. reflexivity. Qed.

(** ** pkg/ddl/mysql/ddl_test.go *)

(* TestIdent_String: success *)
Example ddl_My_1 : oident_string (Some (mkIdent "users" """" """users"""))
  = """users""".
Proof. vm_compute. reflexivity. Qed.

(* TestIdent_String: success,empty *)
Example ddl_My_2 : oident_string None
  = "".
Proof. vm_compute. reflexivity. Qed.

(* TestIdent_StringForDiff: success *)
Example ddl_My_3 : oident_diff (Some (mkIdent "users" """" """users"""))
  = "users".
Proof. vm_compute. reflexivity. Qed.

(* TestIdent_StringForDiff: success,empty *)
Example ddl_My_4 : oident_diff None
  = "".
Proof. vm_compute. reflexivity. Qed.

(* TestDataType_StringForDiff: success *)
Example ddl_My_5 : datatype_diff (mkDT "integer" TOKEN_INTEGER None)
  = TOKEN_INTEGER.
Proof. vm_compute. reflexivity. Qed.

(* TestDataType_StringForDiff: success,TOKEN_ILLEGAL *)
Example ddl_My_6 : datatype_diff (mkDT "unknown" TOKEN_ILLEGAL None)
  = TOKEN_ILLEGAL.
Proof. vm_compute. reflexivity. Qed.

(* TestDataType_StringForDiff: success,empty *)
Example ddl_My_7 : datatype_diff (mkDT "unknown" "" None)
  = TOKEN_ILLEGAL.
Proof. vm_compute. reflexivity. Qed.

(** ** pkg/ddl/mysql/ddl_table_test.go *)

(* TestPrimaryKeyConstraint: success,PrimaryKeyConstraint *)
Example table_My_1 : constraint_string My (CPrimary (Some (mkIdent "pk_users" """" """pk_users""")) [(mkCI (mkIdent "id" """" """id""") None)])
  = "PRIMARY KEY (""id"")".
Proof. vm_compute. reflexivity. Qed.

(* TestPrimaryKeyConstraint: success,PrimaryKeyConstraint,empty *)
Example table_My_2 : constraint_string My (CPrimary None [])
  = "PRIMARY KEY ()".
Proof. vm_compute. reflexivity. Qed.

(* TestForeignKeyConstraint: success,ForeignKeyConstraint *)
Example table_My_3 : constraint_string My (CForeign (Some (mkIdent "fk_users_groups" """" """fk_users_groups""")) [(mkCI (mkIdent "group_id" """" """group_id""") None)] (mkIdent "groups" """" """groups""") [(mkCI (mkIdent "id" """" """id""") None)] "")
  = "CONSTRAINT ""fk_users_groups"" FOREIGN KEY (""group_id"") REFERENCES ""groups"" (""id"")".
Proof. vm_compute. reflexivity. Qed.

(* TestUniqueConstraint: success,UniqueConstraint *)
Example table_My_4 : constraint_string My (CIndex (Some (mkIdent "uq_users_email" """" """uq_users_email""")) true None [(mkCI (mkIdent "email" """" """email""") None)] None)
  = "UNIQUE KEY ""uq_users_email"" (""email"")".
Proof. vm_compute. reflexivity. Qed.

(* TestCheckConstraint: success,CheckConstraint *)
Example table_My_5 : constraint_string My (CCheck (Some (mkIdent "users_check_age" """" """users_check_age""")) (expr_append (Some [(mkIdent "(" "" "("); (mkIdent "age" """" """age"""); (mkIdent ">=" "" ">="); (mkIdent "0" "" "0")]) [(mkIdent ")" "" ")")]))
  = "CONSTRAINT ""users_check_age"" CHECK (""age"" >= 0)".
Proof. vm_compute. reflexivity. Qed.

(* TestObjectName_StringForDiff: success,ObjectName *)
Example table_My_6 : objname_diff (mkON (Some (mkIdent "public" """" """public""")) (mkIdent "users" """" """users"""))
  = "public.users".
Proof. vm_compute. reflexivity. Qed.

(* TestExpr_String: success,String,nil *)
Example table_My_7 : default_string My None
  = "".
Proof. vm_compute. reflexivity. Qed.

(* TestExpr_String: success,String,nilnil *)
Example table_My_8 : default_string My (Some None)
  = "".
Proof. vm_compute. reflexivity. Qed.

(* TestExpr_String: success,PlainString,nilnil *)
Example table_My_9 : default_diff My (Some None)
  = "".
Proof. vm_compute. reflexivity. Qed.

(* TestExpr_String: success,DEFAULT_VALUE *)
Example table_My_10 : default_string My (Some (Some [(mkIdent "now()" "" "now()")]))
  = "DEFAULT now()".
Proof. vm_compute. reflexivity. Qed.

(* TestExpr_String: success,DEFAULT_VALUE,empty *)
Example table_My_11 : expr_string My None
  = "".
Proof. vm_compute. reflexivity. Qed.

(* TestExpr_String: success,DEFAULT_EXPR *)
Example table_My_12 : default_string My (Some (Some [(mkIdent "(" "" "("); (mkIdent "age" "" "age"); (mkIdent ">=" "" ">="); (mkIdent "0" "" "0"); (mkIdent ")" "" ")")]))
  = "DEFAULT (age >= 0)".
Proof. vm_compute. reflexivity. Qed.

(* TestColumn: success,Column *)
Example table_My_13 : column_string My (mkCol (mkIdent "id" """" """id""") (mkDT "INTEGER" "" None) None false false None None None false "" "" None)
  = """id"" INTEGER NULL".
Proof. vm_compute. reflexivity. Qed.

(* TestOption: success,Option *)
Example table_My_14 : option_string My (mkOpt "ENGINE" (Some [(NewRawIdent My "InnoDB")]))
  = "ENGINE=InnoDB".
Proof. vm_compute. reflexivity. Qed.

(* TestOption: success,Option *)
Example table_My_15 : option_string My (mkOpt "KEY" (Some [(NewRawIdent My "("); (NewRawIdent My "sample"); (NewRawIdent My "value"); (NewRawIdent My ")")]))
  = "KEY=(sample value)".
Proof. vm_compute. reflexivity. Qed.

(* TestOption: success,Option *)
Example table_My_16 : option_diff My (mkOpt "KEY" (Some [(NewRawIdent My "("); (NewRawIdent My "sample"); (NewRawIdent My "value"); (NewRawIdent My ")")]))
  = "KEY=( sample value )".
Proof. vm_compute. reflexivity. Qed.

(* TestOption: success,Option,empty,1 *)
Example table_My_17 : option_string My (mkOpt "" None)
  = "".
Proof. vm_compute. reflexivity. Qed.

(* TestOption: success,Option,empty,1 *)
Example table_My_18 : option_diff My (mkOpt "" None)
  = "".
Proof. vm_compute. reflexivity. Qed.

(* TestOptions: success,Option *)
Example table_My_19 : options_string My [(mkOpt "ENGINE" (Some [(NewRawIdent My "InnoDB")])); (mkOpt "CHARSET" (Some [(NewRawIdent My "utf8mb4")]))]
  = "ENGINE=InnoDB CHARSET=utf8mb4".
Proof. vm_compute. reflexivity. Qed.

(* TestOptions: success,Option *)
Example table_My_20 : options_diff My [(mkOpt "ENGINE" (Some [(NewRawIdent My "InnoDB")])); (mkOpt "CHARSET" (Some [(NewRawIdent My "utf8mb4")]))]
  = "ENGINE=InnoDB CHARSET=utf8mb4".
Proof. vm_compute. reflexivity. Qed.

(* TestOptions: success,Option *)
Example table_My_21 : options_string My [(mkOpt "KEY" (Some [(NewRawIdent My "("); (NewRawIdent My "sample"); (NewRawIdent My "value"); (NewRawIdent My ")")]))]
  = "KEY=(sample value)".
Proof. vm_compute. reflexivity. Qed.

(* TestOptions: success,Option *)
Example table_My_22 : options_diff My [(mkOpt "KEY" (Some [(NewRawIdent My "("); (NewRawIdent My "sample"); (NewRawIdent My "value"); (NewRawIdent My ")")]))]
  = "KEY=( sample value )".
Proof. vm_compute. reflexivity. Qed.

(* TestOptions: success,Option,empty,1 *)
Example table_My_23 : options_string My [(mkOpt "" None)]
  = "".
Proof. vm_compute. reflexivity. Qed.

(* TestOptions: success,Option,empty,1 *)
Example table_My_24 : options_diff My [(mkOpt "" None)]
  = "".
Proof. vm_compute. reflexivity. Qed.

(** ** pkg/ddl/mysql/ddl_table_create_test.go *)

(* TestCreateTableStmt_String: success, *)
Example create_table_My_1 : stmt_string My (CreateTable (mkCT "test comment content" false (mkON None (mkIdent "test" "" "test")) [(mkCol (mkIdent "id" "" "id") (mkDT "INTEGER" "" None) None false false None None None false "" "" None); (mkCol (mkIdent "name" "" "name") (mkDT "VARYING" "" (Some [(mkIdent "255" "" "255")])) None false false None None None false "" "" None)] [] [(mkOpt "ENGINE" (Some [(NewRawIdent My "InnoDB")])); (mkOpt "DEFAULT CHARSET" (Some [(NewRawIdent My "utf8mb4")])); (mkOpt "COLLATE" (Some [(NewRawIdent My "utf8mb4_0900_ai_ci")]))] None))
  = "-- test comment content
CREATE TABLE test (
    id INTEGER NULL,
    name VARYING(255) NULL
) ENGINE=InnoDB DEFAULT CHARSET=utf8mb4 COLLATE=utf8mb4_0900_ai_ci;
".
Proof. vm_compute. reflexivity. Qed.

(* TestCreateTableStmt_GetNameForDiff: success, *)
Example create_table_My_2 : stmt_name (CreateTable (mkCT "" false (mkON None (mkIdent "test" """" """test""")) [] [] [] None))
  = "test".
Proof. vm_compute. reflexivity. Qed.

(** ** pkg/ddl/mysql/ddl_table_drop_test.go *)

(* TestDropTableStmt_GetNameForDiff: success, *)
Example drop_table_My_1 : stmt_name (DropTable "" false (mkON None (mkIdent "test" """" """test""")))
  = "test".
Proof. vm_compute. reflexivity. Qed.

(* TestDropTableStmt_String: success, *)
Example drop_table_My_2 : stmt_string My (DropTable "test comment content" true (mkON None (mkIdent "test" "" "test")))
  = "-- test comment content
DROP TABLE IF EXISTS test;
".
Proof. vm_compute. reflexivity. Qed.

(** ** pkg/ddl/mysql/ddl_table_alter_test.go *)

(* TestAlterTableStmt_String: success,RenameTable *)
Example alter_table_My_1 : stmt_string My (AlterTable "" (mkON None (mkIdent "users" """" """users""")) (RenameTable (mkON None (mkIdent "accounts" """" """accounts"""))))
  = "ALTER TABLE ""users"" RENAME TO ""accounts"";
".
Proof. vm_compute. reflexivity. Qed.

(* TestAlterTableStmt_String: success,RenameColumn *)
Example alter_table_My_2 : stmt_string My (AlterTable "" (mkON None (mkIdent "users" """" """users""")) (RenameColumn (mkIdent "name" """" """name""") (mkIdent "username" """" """username""")))
  = "ALTER TABLE ""users"" RENAME COLUMN ""name"" TO ""username"";
".
Proof. vm_compute. reflexivity. Qed.

(* TestAlterTableStmt_String: success,RenameConstraint *)
Example alter_table_My_3 : stmt_string My (AlterTable "" (mkON None (mkIdent "users" """" """users""")) (RenameConstraint (mkIdent "users_pkey" """" """users_pkey""") (mkIdent "users_id_pkey" """" """users_id_pkey""")))
  = "ALTER TABLE ""users"" RENAME CONSTRAINT ""users_pkey"" TO ""users_id_pkey"";
".
Proof. vm_compute. reflexivity. Qed.

(* TestAlterTableStmt_String: success,AddColumn *)
Example alter_table_My_4 : stmt_string My (AlterTable "" (mkON None (mkIdent "users" """" """users""")) (AddColumn (mkCol (mkIdent "age" """" """age""") (mkDT "INTEGER" "" None) None false false None None None false "" "" None)))
  = "ALTER TABLE ""users"" ADD COLUMN ""age"" INTEGER NULL;
".
Proof. vm_compute. reflexivity. Qed.

(* TestAlterTableStmt_String: success,DropColumn *)
Example alter_table_My_5 : stmt_string My (AlterTable "" (mkON None (mkIdent "users" """" """users""")) (DropColumn (mkIdent "age" """" """age""")))
  = "ALTER TABLE ""users"" DROP COLUMN ""age"";
".
Proof. vm_compute. reflexivity. Qed.

(* TestAlterTableStmt_String: success,ModifyColumn *)
Example alter_table_My_6 : stmt_string My (AlterTable "" (mkON None (mkIdent "users" """" """users""")) (ModifyColumn (mkCol (mkIdent "description" """" """description""") (mkDT "TEXT" TOKEN_TEXT None) (Some (Some [(NewRawIdent My "''")])) false false None (Some (mkIdent "utf8mb4" "" "utf8mb4")) (Some (mkIdent "utf8mb4_general_ci" "" "utf8mb4_general_ci")) false "" "'my comment'" None)))
  = "ALTER TABLE ""users"" MODIFY ""description"" TEXT CHARACTER SET utf8mb4 COLLATE utf8mb4_general_ci NULL DEFAULT '' COMMENT 'my comment';
".
Proof. vm_compute. reflexivity. Qed.

(* TestAlterTableStmt_String: success,ModifyColumn,OnActions *)
Example alter_table_My_7 : stmt_string My (AlterTable "" (mkON None (mkIdent "users" """" """users""")) (ModifyColumn (mkCol (mkIdent "updated_at" """" """updated_at""") (mkDT "DATETIME" TOKEN_DATETIME None) None true false None None None false "ON UPDATE CURRENT_TIMESTAMP" "" None)))
  = "ALTER TABLE ""users"" MODIFY ""updated_at"" DATETIME NOT NULL ON UPDATE CURRENT_TIMESTAMP;
".
Proof. vm_compute. reflexivity. Qed.

(* TestAlterTableStmt_String: success,AlterColumnDropDefault *)
Example alter_table_My_8 : stmt_string My (AlterTable "" (mkON None (mkIdent "users" """" """users""")) (DropDefault (mkIdent "age" """" """age""")))
  = "ALTER TABLE ""users"" ALTER ""age"" DROP DEFAULT;
".
Proof. vm_compute. reflexivity. Qed.

(* TestAlterTableStmt_String: success,AddConstraint *)
Example alter_table_My_9 : stmt_string My (AlterTable "" (mkON None (mkIdent "groups" """" """groups""")) (AddConstraint (CPrimary (Some (mkIdent "groups_pkey" """" """groups_pkey""")) [(mkCI (mkIdent "id" """" """id""") None)]) false))
  = "ALTER TABLE ""groups"" ADD PRIMARY KEY (""id"");
".
Proof. vm_compute. reflexivity. Qed.

(* TestAlterTableStmt_String: success,DropConstraint *)
Example alter_table_My_10 : stmt_string My (AlterTable "" (mkON None (mkIdent "groups" """" """groups""")) (DropConstraint (Some (mkIdent "groups_pkey" """" """groups_pkey"""))))
  = "ALTER TABLE ""groups"" DROP CONSTRAINT ""groups_pkey"";
".
Proof. vm_compute. reflexivity. Qed.

(* TestAlterTableStmt_String: success,AlterConstraint,DEFERRABLE *)
Example alter_table_My_11 : stmt_string My (AlterTable "" (mkON None (mkIdent "groups" """" """groups""")) (AlterConstraint (mkIdent "groups_pkey" """" """groups_pkey""") true true))
  = "ALTER TABLE ""groups"" ALTER CONSTRAINT ""groups_pkey"" DEFERRABLE INITIALLY DEFERRED;
".
Proof. vm_compute. reflexivity. Qed.

(* TestAlterTableStmt_String: success,AlterConstraint,NOT_DEFERRABLE *)
Example alter_table_My_12 : stmt_string My (AlterTable "" (mkON None (mkIdent "groups" """" """groups""")) (AlterConstraint (mkIdent "groups_pkey" """" """groups_pkey""") false false))
  = "ALTER TABLE ""groups"" ALTER CONSTRAINT ""groups_pkey"" NOT DEFERRABLE INITIALLY IMMEDIATE;
".
Proof. vm_compute. reflexivity. Qed.

(* TestAlterTableStmt_GetNameForDiff *)
Example alter_table_My_13 : stmt_name (AlterTable "" (mkON None (mkIdent "users" """" """users""")) DropRowDeletion)
  = "users".
Proof. vm_compute. reflexivity. Qed.

(** ** pkg/ddl/mysql/ddl_index_create_test.go *)

(* TestCreateIndexStmt_GetNameForDiff: success, *)
Example create_index_My_1 : stmt_name (CreateIndex (mkCX "" false false (mkON None (mkIdent "test" """" """test""")) (mkON None (mkIdent "" "" "")) [] None [] None))
  = "test".
Proof. vm_compute. reflexivity. Qed.

(* TestCreateIndexStmt_String: success, *)
Example create_index_My_2 : stmt_string My (CreateIndex (mkCX "test comment content" false true (mkON None (mkIdent "test" """" """test""")) (mkON None (mkIdent "users" """" """users""")) [(mkIdent "btree" "" "btree")] None [(mkCI (mkIdent "id" """" """id""") (Some false))] None))
  = "-- test comment content
CREATE INDEX IF NOT EXISTS ""test"" ON ""users"" USING btree (""id"");
".
Proof. vm_compute. reflexivity. Qed.

(** ** pkg/ddl/mysql/ddl_index_drop_test.go *)

(* TestDropIndexStmt_GetNameForDiff: success, *)
Example drop_index_My_1 : stmt_name (DropIndex "" false (mkON None (mkIdent "test" """" """test""")))
  = "test".
Proof. vm_compute. reflexivity. Qed.

(* TestDropIndexStmt_String: success, *)
Example drop_index_My_2 : stmt_string My (DropIndex "" true (mkON None (mkIdent "test" """" """test""")))
  = "DROP INDEX IF EXISTS ""test"";
".
Proof. vm_compute. reflexivity. Qed.

(** ** pkg/ddl/mysql/diff_test.go *)

(* TestDiff: failure,ddl.ErrNoDifference *)
Example diff_My_1 : diff My (fun cs => cs) no_comment (Some []) (Some [])
  = DNoDiff.
Proof. vm_compute. reflexivity. Qed.

(* TestDiff: failure,ddl.ErrNotSupported,DropTableStmt *)
Example diff_My_2 : diff My (fun cs => cs) no_comment (Some [(DropTable "" false (mkON None (mkIdent "table_name" "" "table_name")))]) None
  = DNotSupported.
Proof. vm_compute. reflexivity. Qed.

(* TestDiff: failure,ddl.ErrNotSupported,DropTableStmt *)
Example diff_My_3 : diff My (fun cs => cs) no_comment (Some [(DropTable "" false (mkON None (mkIdent "table_name" "" "table_name")))]) (Some [])
  = DNotSupported.
Proof. vm_compute. reflexivity. Qed.

(* TestDiff: failure,ddl.ErrNotSupported,DropTableStmt *)
Example diff_My_4 : diff My (fun cs => cs) no_comment (Some []) (Some [(DropTable "" false (mkON None (mkIdent "table_name" "" "table_name")))])
  = DNotSupported.
Proof. vm_compute. reflexivity. Qed.

(* TestDiff: success,after *)
Example diff_My_5 : dres_string My (diff My (fun cs => cs) no_comment None (Some [(CreateTable (mkCT "" false (mkON None (mkIdent "table_name" "" "table_name")) [(mkCol (mkIdent "column_name" "" "column_name") (mkDT "STRING" "" None) None true false None None None false "" "" None)] [(CPrimary None [(mkCI (mkIdent "column_name" "" "column_name") None)])] [] None))]))
  = Ok "CREATE TABLE table_name (
    column_name STRING NOT NULL,
    PRIMARY KEY (column_name)
);
".
Proof. vm_compute. reflexivity. Qed.

(* TestDiff: success,before,nil,Table *)
Example diff_My_6 : dres_string My (diff My (fun cs => cs) no_comment (Some [(CreateTable (mkCT "" false (mkON (Some (mkIdent "public" "" "public")) (mkIdent "table_name" "" "table_name")) [(mkCol (mkIdent "column_name" "" "column_name") (mkDT "" "" None) None false false None None None false "" "" None)] [] [] None))]) None)
  = Ok "DROP TABLE public.table_name;
".
Proof. vm_compute. reflexivity. Qed.

(* TestDiff: success,before,Table *)
Example diff_My_7 : dres_string My (diff My (fun cs => cs) no_comment (Some [(CreateTable (mkCT "" false (mkON None (mkIdent "table_name" "" "table_name")) [(mkCol (mkIdent "column_name" "" "column_name") (mkDT "" "" None) None false false None None None false "" "" None)] [] [] None))]) (Some []))
  = Ok "DROP TABLE table_name;
".
Proof. vm_compute. reflexivity. Qed.

(* TestDiff: success,before,nil,Index *)
Example diff_My_8 : dres_string My (diff My (fun cs => cs) no_comment (Some [(CreateIndex (mkCX "" false false (mkON None (mkIdent "table_name_idx_column_name" "" "table_name_idx_column_name")) (mkON None (mkIdent "" "" "")) [] None [(mkCI (mkIdent "column_name" "" "column_name") None)] None))]) None)
  = Ok "DROP INDEX table_name_idx_column_name;
".
Proof. vm_compute. reflexivity. Qed.

(* TestDiff: success,before,Index *)
Example diff_My_9 : dres_string My (diff My (fun cs => cs) no_comment (Some [(CreateIndex (mkCX "" false false (mkON None (mkIdent "table_name_idx_column_name" "" "table_name_idx_column_name")) (mkON None (mkIdent "" "" "")) [] None [(mkCI (mkIdent "column_name" "" "column_name") None)] None))]) (Some []))
  = Ok "DROP INDEX table_name_idx_column_name;
".
Proof. vm_compute. reflexivity. Qed.

(* TestDiff: success,before,Table *)
Example diff_My_10 : dres_string My (diff My (fun cs => cs) no_comment (Some []) (Some [(CreateTable (mkCT "" false (mkON (Some (mkIdent "public" "" "public")) (mkIdent "table_name" "" "table_name")) [(mkCol (mkIdent "column_name" "" "column_name") (mkDT "STRING" "" None) None true false None None None false "" "" None)] [(CPrimary None [(mkCI (mkIdent "column_name" "" "column_name") None)])] [] None))]))
  = Ok "CREATE TABLE public.table_name (
    column_name STRING NOT NULL,
    PRIMARY KEY (column_name)
);
".
Proof. vm_compute. reflexivity. Qed.

(* TestDiff: success,before,Index *)
Example diff_My_11 : diff My (fun cs => cs) no_comment (Some []) (Some [(CreateIndex (mkCX "" false false (mkON None (mkIdent "table_name_idx_column_name" "" "table_name_idx_column_name")) (mkON None (mkIdent "table_name" "" "table_name")) [] None [(mkCI (mkIdent "column_name" "" "column_name") None)] None))])
  = match (Some [(CreateIndex (mkCX "" false false (mkON None (mkIdent "table_name_idx_column_name" "" "table_name_idx_column_name")) (mkON None (mkIdent "table_name" "" "table_name")) [] None [(mkCI (mkIdent "column_name" "" "column_name") None)] None))]) with Some l => DOk l | None => DNoDiff end.
Proof. vm_compute. reflexivity. Qed.

(* TestDiff: success,before,Index *)
Example diff_My_12 : dres_string My (diff My (fun cs => cs) no_comment (Some []) (Some [(CreateIndex (mkCX "" false false (mkON None (mkIdent "table_name_idx_column_name" "" "table_name_idx_column_name")) (mkON None (mkIdent "table_name" "" "table_name")) [] None [(mkCI (mkIdent "column_name" "" "column_name") None)] None))]))
  = Ok "CREATE INDEX table_name_idx_column_name ON table_name (column_name);
".
Proof. vm_compute. reflexivity. Qed.

(** ** pkg/ddl/spanner/ddl_test.go *)

(* TestIdent_String: success *)
Example ddl_Sp_1 : oident_string (Some (mkIdent "users" """" """users"""))
  = """users""".
Proof. vm_compute. reflexivity. Qed.

(* TestIdent_String: success,empty *)
Example ddl_Sp_2 : oident_string None
  = "".
Proof. vm_compute. reflexivity. Qed.

(* TestIdent_StringForDiff: success *)
Example ddl_Sp_3 : oident_diff (Some (mkIdent "users" """" """users"""))
  = "users".
Proof. vm_compute. reflexivity. Qed.

(* TestIdent_StringForDiff: success,empty *)
Example ddl_Sp_4 : oident_diff None
  = "".
Proof. vm_compute. reflexivity. Qed.

(* TestDataType_StringForDiff: success *)
Example ddl_Sp_5 : datatype_diff (mkDT "INT64" TOKEN_INT64 (Some []))
  = TOKEN_INT64.
Proof. vm_compute. reflexivity. Qed.

(* TestDataType_StringForDiff: success,TOKEN_ILLEGAL *)
Example ddl_Sp_6 : datatype_diff (mkDT "unknown" TOKEN_ILLEGAL (Some []))
  = TOKEN_ILLEGAL.
Proof. vm_compute. reflexivity. Qed.

(* TestDataType_StringForDiff: success,empty *)
Example ddl_Sp_7 : datatype_diff (mkDT "unknown" "" (Some []))
  = TOKEN_ILLEGAL.
Proof. vm_compute. reflexivity. Qed.

(** ** pkg/ddl/spanner/ddl_table_test.go *)

(* TestForeignKeyConstraint: success,ForeignKeyConstraint *)
Example table_Sp_1 : constraint_string Sp (CForeign (Some (mkIdent "fk_users_groups" """" """fk_users_groups""")) [(mkCI (mkIdent "group_id" """" """group_id""") None)] (mkIdent "groups" """" """groups""") [(mkCI (mkIdent "id" """" """id""") None)] "")
  = "CONSTRAINT ""fk_users_groups"" FOREIGN KEY (""group_id"") REFERENCES ""groups"" (""id"")".
Proof. vm_compute. reflexivity. Qed.

(* TestCheckConstraint: success,CheckConstraint *)
Example table_Sp_2 : constraint_string Sp (CCheck (Some (mkIdent "users_check_age" """" """users_check_age""")) (Some [(mkIdent "(" "" "("); (mkIdent "age" """" """age"""); (mkIdent ">=" "" ">="); (mkIdent "0" "" "0"); (mkIdent ")" "" ")")]))
  = "CONSTRAINT ""users_check_age"" CHECK (""age"" >= 0)".
Proof. vm_compute. reflexivity. Qed.

(* TestObjectName_StringForDiff: success,ObjectName *)
Example table_Sp_3 : objname_diff (mkON (Some (mkIdent "public" """" """public""")) (mkIdent "users" """" """users"""))
  = "public.users".
Proof. vm_compute. reflexivity. Qed.

(* TestExpr_String: success,String,nil *)
Example table_Sp_4 : default_string Sp None
  = "".
Proof. vm_compute. reflexivity. Qed.

(* TestExpr_String: success,String,nilnil *)
Example table_Sp_5 : default_string Sp (Some None)
  = "".
Proof. vm_compute. reflexivity. Qed.

(* TestExpr_String: success,PlainString,nilnil *)
Example table_Sp_6 : default_diff Sp (Some None)
  = "".
Proof. vm_compute. reflexivity. Qed.

(* TestExpr_String: success,DEFAULT_VALUE *)
Example table_Sp_7 : default_string Sp (Some (Some [(mkIdent "now()" "" "now()")]))
  = "DEFAULT now()".
Proof. vm_compute. reflexivity. Qed.

(* TestExpr_String: success,DEFAULT_VALUE,empty *)
Example table_Sp_8 : expr_string Sp None
  = "".
Proof. vm_compute. reflexivity. Qed.

(* TestExpr_String: success,DEFAULT_EXPR *)
Example table_Sp_9 : default_string Sp (Some (Some [(mkIdent "(" "" "("); (mkIdent "age" "" "age"); (mkIdent ">=" "" ">="); (mkIdent "0" "" "0"); (mkIdent ")" "" ")")]))
  = "DEFAULT (age >= 0)".
Proof. vm_compute. reflexivity. Qed.

(* TestColumn: success,Column *)
Example table_Sp_10 : column_string Sp (mkCol (mkIdent "id" """" """id""") (mkDT "INTEGER" "" None) None false false None None None false "" "" None)
  = """id"" INTEGER".
Proof. vm_compute. reflexivity. Qed.

(* TestOption: success,Option *)
Example table_Sp_11 : option_string Sp (mkOpt "PRIMARY KEY" (Some [(NewRawIdent Sp "("); (NewRawIdent Sp """id1"""); (NewRawIdent Sp ","); (NewRawIdent Sp """id2"""); (NewRawIdent Sp ")")]))
  = "PRIMARY KEY (""id1"", ""id2"")".
Proof. vm_compute. reflexivity. Qed.

(* TestOption: success,Option *)
Example table_Sp_12 : option_diff Sp (mkOpt "PRIMARY KEY" (Some [(NewRawIdent Sp "("); (NewRawIdent Sp """id1"""); (NewRawIdent Sp ","); (NewRawIdent Sp """id2"""); (NewRawIdent Sp ")")]))
  = "PRIMARY KEY ( id1 , id2 )".
Proof. vm_compute. reflexivity. Qed.

(* TestOption: success,Options *)
Example table_Sp_13 : options_string Sp [(mkOpt "PRIMARY KEY" (Some [(NewRawIdent Sp "("); (NewRawIdent Sp """id1"""); (NewRawIdent Sp ","); (NewRawIdent Sp """id2"""); (NewRawIdent Sp ")")])); (mkOpt "PRIMARY KEY" (Some [(NewRawIdent Sp "("); (NewRawIdent Sp """id1"""); (NewRawIdent Sp ","); (NewRawIdent Sp """id2"""); (NewRawIdent Sp ")")]))]
  = "PRIMARY KEY (""id1"", ""id2""),
PRIMARY KEY (""id1"", ""id2"")".
Proof. vm_compute. reflexivity. Qed.

(* TestOption: success,Options *)
Example table_Sp_14 : options_diff Sp [(mkOpt "PRIMARY KEY" (Some [(NewRawIdent Sp "("); (NewRawIdent Sp """id1"""); (NewRawIdent Sp ","); (NewRawIdent Sp """id2"""); (NewRawIdent Sp ")")])); (mkOpt "PRIMARY KEY" (Some [(NewRawIdent Sp "("); (NewRawIdent Sp """id1"""); (NewRawIdent Sp ","); (NewRawIdent Sp """id2"""); (NewRawIdent Sp ")")]))]
  = "PRIMARY KEY ( id1 , id2 ), PRIMARY KEY ( id1 , id2 )".
Proof. vm_compute. reflexivity. Qed.

(* TestOption: success,Option,empty *)
Example table_Sp_15 : option_string Sp (mkOpt "" None)
  = "".
Proof. vm_compute. reflexivity. Qed.

(* TestOption: success,Option,empty *)
Example table_Sp_16 : option_diff Sp (mkOpt "" None)
  = "".
Proof. vm_compute. reflexivity. Qed.

(** ** pkg/ddl/spanner/ddl_table_create_test.go *)

(* TestCreateTableStmt_String: success, *)
Example create_table_Sp_1 : stmt_string Sp (CreateTable (mkCT "test comment content" false (mkON None (mkIdent "test" "" "test")) [(mkCol (mkIdent "id" "" "id") (mkDT "INT64" "" None) None false false None None None false "" "" None); (mkCol (mkIdent "name" "" "name") (mkDT "STRING" "" (Some [(NewRawIdent Sp "255")])) None false false None None None false "" "" None); (mkCol (mkIdent "created_at" "" "created_at") (mkDT "TIMESTAMP" "" None) None true false None None None false "" "" (Some [(NewRawIdent Sp "("); (NewRawIdent Sp "allow_commit_timestamp"); (NewRawIdent Sp "="); (NewRawIdent Sp "true"); (NewRawIdent Sp ","); (NewRawIdent Sp "option_name"); (NewRawIdent Sp "="); (NewRawIdent Sp "null"); (NewRawIdent Sp ")")]))] [] [(mkOpt "PRIMARY KEY" (Some [(NewRawIdent Sp "("); (NewRawIdent Sp "id"); (NewRawIdent Sp ")")]))] None))
  = "-- test comment content
CREATE TABLE test (
    id INT64,
    name STRING(255),
    created_at TIMESTAMP NOT NULL OPTIONS (allow_commit_timestamp = true, option_name = null)
) PRIMARY KEY (id);
".
Proof. vm_compute. reflexivity. Qed.

(* TestCreateTableStmt_GetNameForDiff: success, *)
Example create_table_Sp_2 : stmt_name (CreateTable (mkCT "" false (mkON None (mkIdent "test" """" """test""")) [] [] [] None))
  = "test".
Proof. vm_compute. reflexivity. Qed.

(** ** pkg/ddl/spanner/ddl_table_drop_test.go *)

(* TestDropTableStmt_GetNameForDiff: success, *)
Example drop_table_Sp_1 : stmt_name (DropTable "" false (mkON None (mkIdent "test" """" """test""")))
  = "test".
Proof. vm_compute. reflexivity. Qed.

(* TestDropTableStmt_String: success, *)
Example drop_table_Sp_2 : stmt_string Sp (DropTable "test comment content" true (mkON None (mkIdent "test" "" "test")))
  = "-- test comment content
DROP TABLE IF EXISTS test;
".
Proof. vm_compute. reflexivity. Qed.

(** ** pkg/ddl/spanner/ddl_table_alter_test.go *)

(* TestAlterTableStmt_String: success,RenameTable *)
Example alter_table_Sp_1 : stmt_string Sp (AlterTable "" (mkON None (mkIdent "users" """" """users""")) (RenameTable (mkON None (mkIdent "accounts" """" """accounts"""))))
  = "ALTER TABLE ""users"" RENAME TO ""accounts"";
".
Proof. vm_compute. reflexivity. Qed.

(* TestAlterTableStmt_String: success,RenameColumn *)
Example alter_table_Sp_2 : stmt_string Sp (AlterTable "" (mkON None (mkIdent "users" """" """users""")) (RenameColumn (mkIdent "name" """" """name""") (mkIdent "username" """" """username""")))
  = "ALTER TABLE ""users"" RENAME COLUMN ""name"" TO ""username"";
".
Proof. vm_compute. reflexivity. Qed.

(* TestAlterTableStmt_String: success,RenameConstraint *)
Example alter_table_Sp_3 : stmt_string Sp (AlterTable "" (mkON None (mkIdent "users" """" """users""")) (RenameConstraint (mkIdent "users_pkey" """" """users_pkey""") (mkIdent "users_id_pkey" """" """users_id_pkey""")))
  = "ALTER TABLE ""users"" RENAME CONSTRAINT ""users_pkey"" TO ""users_id_pkey"";
".
Proof. vm_compute. reflexivity. Qed.

(* TestAlterTableStmt_String: success,AddColumn *)
Example alter_table_Sp_4 : stmt_string Sp (AlterTable "" (mkON None (mkIdent "users" """" """users""")) (AddColumn (mkCol (mkIdent "age" """" """age""") (mkDT "INTEGER" "" None) None false false None None None false "" "" None)))
  = "ALTER TABLE ""users"" ADD COLUMN ""age"" INTEGER;
".
Proof. vm_compute. reflexivity. Qed.

(* TestAlterTableStmt_String: success,DropColumn *)
Example alter_table_Sp_5 : stmt_string Sp (AlterTable "" (mkON None (mkIdent "users" """" """users""")) (DropColumn (mkIdent "age" """" """age""")))
  = "ALTER TABLE ""users"" DROP COLUMN ""age"";
".
Proof. vm_compute. reflexivity. Qed.

(* TestAlterTableStmt_String: success,AlterColumnDataType *)
Example alter_table_Sp_6 : stmt_string Sp (AlterTable "" (mkON None (mkIdent "users" """" """users""")) (AlterDataType (mkIdent "age" """" """age""") (mkDT "INT64" "" None) false))
  = "ALTER TABLE ""users"" ALTER COLUMN ""age"" INT64;
".
Proof. vm_compute. reflexivity. Qed.

(* TestAlterTableStmt_String: success,AlterColumnSetDefault *)
Example alter_table_Sp_7 : stmt_string Sp (AlterTable "" (mkON None (mkIdent "users" """" """users""")) (SetDefault (mkIdent "age" """" """age""") (Some (Some [(mkIdent "0" "" "0")]))))
  = "ALTER TABLE ""users"" ALTER COLUMN ""age"" SET DEFAULT 0;
".
Proof. vm_compute. reflexivity. Qed.

(* TestAlterTableStmt_String: success,AlterColumnDropDefault *)
Example alter_table_Sp_8 : stmt_string Sp (AlterTable "" (mkON None (mkIdent "users" """" """users""")) (DropDefault (mkIdent "age" """" """age""")))
  = "ALTER TABLE ""users"" ALTER COLUMN ""age"" DROP DEFAULT;
".
Proof. vm_compute. reflexivity. Qed.

(* TestAlterTableStmt_String: success,AddConstraint *)
Example alter_table_Sp_9 : stmt_string Sp (AlterTable "" (mkON None (mkIdent "groups" """" """groups""")) (AddConstraint (CCheck (Some (mkIdent "groups_yyyymmdd_chk" """" """groups_yyyymmdd_chk""")) (Some [(NewRawIdent Sp "("); (NewRawIdent Sp """yyyymmdd"""); (NewRawIdent Sp ">"); (NewRawIdent Sp "0"); (NewRawIdent Sp ")")])) false))
  = "ALTER TABLE ""groups"" ADD CONSTRAINT ""groups_yyyymmdd_chk"" CHECK (""yyyymmdd"" > 0);
".
Proof. vm_compute. reflexivity. Qed.

(* TestAlterTableStmt_String: success,DropConstraint *)
Example alter_table_Sp_10 : stmt_string Sp (AlterTable "" (mkON None (mkIdent "groups" """" """groups""")) (DropConstraint (Some (mkIdent "groups_pkey" """" """groups_pkey"""))))
  = "ALTER TABLE ""groups"" DROP CONSTRAINT ""groups_pkey"";
".
Proof. vm_compute. reflexivity. Qed.

(* TestAlterTableStmt_String: success,AlterConstraint,DEFERRABLE *)
Example alter_table_Sp_11 : stmt_string Sp (AlterTable "" (mkON None (mkIdent "groups" """" """groups""")) (AlterConstraint (mkIdent "groups_pkey" """" """groups_pkey""") true true))
  = "ALTER TABLE ""groups"" ALTER CONSTRAINT ""groups_pkey"" DEFERRABLE INITIALLY DEFERRED;
".
Proof. vm_compute. reflexivity. Qed.

(* TestAlterTableStmt_String: success,AlterConstraint,NOT_DEFERRABLE *)
Example alter_table_Sp_12 : stmt_string Sp (AlterTable "" (mkON None (mkIdent "groups" """" """groups""")) (AlterConstraint (mkIdent "groups_pkey" """" """groups_pkey""") false false))
  = "ALTER TABLE ""groups"" ALTER CONSTRAINT ""groups_pkey"" NOT DEFERRABLE INITIALLY IMMEDIATE;
".
Proof. vm_compute. reflexivity. Qed.

(* TestAlterTableStmt_String: success,AddRowDeletionPolicy *)
Example alter_table_Sp_13 : stmt_string Sp (AlterTable "" (mkON None (mkIdent "groups" """" """groups""")) (AddRowDeletion (mkOpt "ROW DELETION POLICY" (Some [(NewRawIdent Sp "("); (NewRawIdent Sp "OLDER_THAN"); (NewRawIdent Sp "("); (NewRawIdent Sp "CreatedAt"); (NewRawIdent Sp ","); (NewRawIdent Sp "INTERVAL"); (NewRawIdent Sp "30"); (NewRawIdent Sp "DAY"); (NewRawIdent Sp ")"); (NewRawIdent Sp ")")]))))
  = "ALTER TABLE ""groups"" ADD ROW DELETION POLICY (OLDER_THAN(CreatedAt, INTERVAL 30 DAY));
".
Proof. vm_compute. reflexivity. Qed.

(* TestAlterTableStmt_String: success,ReplaceRowDeletionPolicy *)
Example alter_table_Sp_14 : stmt_string Sp (AlterTable "" (mkON None (mkIdent "groups" """" """groups""")) (ReplaceRowDeletion (mkOpt "ROW DELETION POLICY" (Some [(NewRawIdent Sp "("); (NewRawIdent Sp "OLDER_THAN"); (NewRawIdent Sp "("); (NewRawIdent Sp "CreatedAt"); (NewRawIdent Sp ","); (NewRawIdent Sp "INTERVAL"); (NewRawIdent Sp "30"); (NewRawIdent Sp "DAY"); (NewRawIdent Sp ")"); (NewRawIdent Sp ")")]))))
  = "ALTER TABLE ""groups"" REPLACE ROW DELETION POLICY (OLDER_THAN(CreatedAt, INTERVAL 30 DAY));
".
Proof. vm_compute. reflexivity. Qed.

(* TestAlterTableStmt_String: success,DropRowDeletionPolicy *)
Example alter_table_Sp_15 : stmt_string Sp (AlterTable "" (mkON None (mkIdent "groups" """" """groups""")) DropRowDeletion)
  = "ALTER TABLE ""groups"" DROP ROW DELETION POLICY;
".
Proof. vm_compute. reflexivity. Qed.

(* TestAlterTableStmt_GetNameForDiff *)
Example alter_table_Sp_16 : stmt_name (AlterTable "" (mkON None (mkIdent "users" """" """users""")) DropRowDeletion)
  = "users".
Proof. vm_compute. reflexivity. Qed.

(** ** pkg/ddl/spanner/ddl_index_create_test.go *)

(* TestCreateIndexStmt_GetNameForDiff: success, *)
Example create_index_Sp_1 : stmt_name (CreateIndex (mkCX "" false false (mkON None (mkIdent "test" """" """test""")) (mkON None (mkIdent "" "" "")) [] None [] None))
  = "test".
Proof. vm_compute. reflexivity. Qed.

(* TestCreateIndexStmt_String: success, *)
Example create_index_Sp_2 : stmt_string Sp (CreateIndex (mkCX "test comment content" false true (mkON None (mkIdent "test" """" """test""")) (mkON None (mkIdent "users" """" """users""")) [(mkIdent "btree" "" "btree")] None [(mkCI (mkIdent "id" """" """id""") (Some false))] None))
  = "-- test comment content
CREATE INDEX IF NOT EXISTS ""test"" ON ""users"" USING btree (""id"" ASC);
".
Proof. vm_compute. reflexivity. Qed.

(** ** pkg/ddl/spanner/ddl_index_drop_test.go *)

(* TestDropIndexStmt_GetNameForDiff: success, *)
Example drop_index_Sp_1 : stmt_name (DropIndex "" false (mkON None (mkIdent "test" """" """test""")))
  = "test".
Proof. vm_compute. reflexivity. Qed.

(* TestDropIndexStmt_String: success, *)
Example drop_index_Sp_2 : stmt_string Sp (DropIndex "" true (mkON None (mkIdent "test" """" """test""")))
  = "DROP INDEX IF EXISTS ""test"";
".
Proof. vm_compute. reflexivity. Qed.

(** ** pkg/ddl/spanner/diff_test.go *)

(* TestDiff: failure,ddl.ErrNoDifference *)
Example diff_Sp_1 : diff Sp (fun cs => cs) no_comment (Some []) (Some [])
  = DNoDiff.
Proof. vm_compute. reflexivity. Qed.

(* TestDiff: failure,ddl.ErrNotSupported,DropTableStmt *)
Example diff_Sp_2 : diff Sp (fun cs => cs) no_comment (Some [(DropTable "" false (mkON None (mkIdent "table_name" "" "table_name")))]) None
  = DNotSupported.
Proof. vm_compute. reflexivity. Qed.

(* TestDiff: failure,ddl.ErrNotSupported,DropTableStmt *)
Example diff_Sp_3 : diff Sp (fun cs => cs) no_comment (Some [(DropTable "" false (mkON None (mkIdent "table_name" "" "table_name")))]) (Some [])
  = DNotSupported.
Proof. vm_compute. reflexivity. Qed.

(* TestDiff: failure,ddl.ErrNotSupported,DropTableStmt *)
Example diff_Sp_4 : diff Sp (fun cs => cs) no_comment (Some []) (Some [(DropTable "" false (mkON None (mkIdent "table_name" "" "table_name")))])
  = DNotSupported.
Proof. vm_compute. reflexivity. Qed.

(* TestDiff: success,after *)
Example diff_Sp_5 : dres_string Sp (diff Sp (fun cs => cs) no_comment None (Some [(CreateTable (mkCT "" false (mkON None (mkIdent "table_name" "" "table_name")) [(mkCol (mkIdent "column_name" "" "column_name") (mkDT "STRING" "" None) None true false None None None false "" "" None)] [(CCheck (Some (NewRawIdent Sp "table_name_check_column_name")) (Some [(NewRawIdent Sp "("); (NewRawIdent Sp "column_name"); (NewRawIdent Sp "!="); (NewRawIdent Sp "''"); (NewRawIdent Sp ")")]))] [(mkOpt "PRIMARY KEY" (Some [(NewRawIdent Sp "("); (NewRawIdent Sp "column_name"); (NewRawIdent Sp ")")]))] None))]))
  = Ok "CREATE TABLE table_name (
    column_name STRING NOT NULL,
    CONSTRAINT table_name_check_column_name CHECK (column_name != '')
) PRIMARY KEY (column_name);
".
Proof. vm_compute. reflexivity. Qed.

(* TestDiff: success,before,nil,Table *)
Example diff_Sp_6 : dres_string Sp (diff Sp (fun cs => cs) no_comment (Some [(CreateTable (mkCT "" false (mkON (Some (mkIdent "public" "" "public")) (mkIdent "table_name" "" "table_name")) [(mkCol (mkIdent "column_name" "" "column_name") (mkDT "" "" None) None false false None None None false "" "" None)] [] [] None))]) None)
  = Ok "DROP TABLE public.table_name;
".
Proof. vm_compute. reflexivity. Qed.

(* TestDiff: success,before,Table *)
Example diff_Sp_7 : dres_string Sp (diff Sp (fun cs => cs) no_comment (Some [(CreateTable (mkCT "" false (mkON None (mkIdent "table_name" "" "table_name")) [(mkCol (mkIdent "column_name" "" "column_name") (mkDT "" "" None) None false false None None None false "" "" None)] [] [] None))]) (Some []))
  = Ok "DROP TABLE table_name;
".
Proof. vm_compute. reflexivity. Qed.

(* TestDiff: success,before,nil,Index *)
Example diff_Sp_8 : dres_string Sp (diff Sp (fun cs => cs) no_comment (Some [(CreateIndex (mkCX "" false false (mkON None (mkIdent "table_name_idx_column_name" "" "table_name_idx_column_name")) (mkON None (mkIdent "" "" "")) [] None [(mkCI (mkIdent "column_name" "" "column_name") None)] None))]) None)
  = Ok "DROP INDEX table_name_idx_column_name;
".
Proof. vm_compute. reflexivity. Qed.

(* TestDiff: success,before,Index *)
Example diff_Sp_9 : dres_string Sp (diff Sp (fun cs => cs) no_comment (Some [(CreateIndex (mkCX "" false false (mkON None (mkIdent "table_name_idx_column_name" "" "table_name_idx_column_name")) (mkON None (mkIdent "" "" "")) [] None [(mkCI (mkIdent "column_name" "" "column_name") None)] None))]) (Some []))
  = Ok "DROP INDEX table_name_idx_column_name;
".
Proof. vm_compute. reflexivity. Qed.

(* TestDiff: success,before,Table *)
Example diff_Sp_10 : dres_string Sp (diff Sp (fun cs => cs) no_comment (Some []) (Some [(CreateTable (mkCT "" false (mkON None (mkIdent "table_name" "" "table_name")) [(mkCol (mkIdent "column_name" "" "column_name") (mkDT "STRING" "" None) None true false None None None false "" "" None)] [(CCheck (Some (NewRawIdent Sp "table_name_check_column_name")) (Some [(NewRawIdent Sp "("); (NewRawIdent Sp "column_name"); (NewRawIdent Sp "!="); (NewRawIdent Sp "''"); (NewRawIdent Sp ")")]))] [(mkOpt "PRIMARY KEY" (Some [(NewRawIdent Sp "("); (NewRawIdent Sp "column_name"); (NewRawIdent Sp ")")]))] None))]))
  = Ok "CREATE TABLE table_name (
    column_name STRING NOT NULL,
    CONSTRAINT table_name_check_column_name CHECK (column_name != '')
) PRIMARY KEY (column_name);
".
Proof. vm_compute. reflexivity. Qed.

(* TestDiff: success,before,Index *)
Example diff_Sp_11 : diff Sp (fun cs => cs) no_comment (Some []) (Some [(CreateIndex (mkCX "" false false (mkON None (mkIdent "table_name_idx_column_name" "" "table_name_idx_column_name")) (mkON None (mkIdent "table_name" "" "table_name")) [] None [(mkCI (mkIdent "column_name" "" "column_name") None)] None))])
  = match (Some [(CreateIndex (mkCX "" false false (mkON None (mkIdent "table_name_idx_column_name" "" "table_name_idx_column_name")) (mkON None (mkIdent "table_name" "" "table_name")) [] None [(mkCI (mkIdent "column_name" "" "column_name") None)] None))]) with Some l => DOk l | None => DNoDiff end.
Proof. vm_compute. reflexivity. Qed.

(* TestDiff: success,before,Index *)
Example diff_Sp_12 : dres_string Sp (diff Sp (fun cs => cs) no_comment (Some []) (Some [(CreateIndex (mkCX "" false false (mkON None (mkIdent "table_name_idx_column_name" "" "table_name_idx_column_name")) (mkON None (mkIdent "table_name" "" "table_name")) [] None [(mkCI (mkIdent "column_name" "" "column_name") None)] None))]))
  = Ok "CREATE INDEX table_name_idx_column_name ON table_name (column_name);
".
Proof. vm_compute. reflexivity. Qed.

(** ** TestConstraints_Append of pkg/ddl/{cockroachdb,mysql,spanner}/ddl_table_test.go *)

Example append_Crdb : append_constraints Crdb (fun cs => cs) [] [CPrimary (Some (mkIdent "pk_users" """" """pk_users""")) [mkCI (mkIdent "id" """" """id""") None]; CPrimary (Some (mkIdent "pk_users" """" """pk_users""")) [mkCI (mkIdent "id" """" """id""") None]]
  = Ok [CPrimary (Some (mkIdent "pk_users" """" """pk_users""")) [mkCI (mkIdent "id" """" """id""") None]].
Proof. vm_compute. reflexivity. Qed.

Example append_My : append_constraints My (fun cs => cs) [] [CPrimary (Some (mkIdent "pk_users" """" """pk_users""")) [mkCI (mkIdent "id" """" """id""") None]; CPrimary (Some (mkIdent "pk_users" """" """pk_users""")) [mkCI (mkIdent "id" """" """id""") None]]
  = Ok [CPrimary (Some (mkIdent "pk_users" """" """pk_users""")) [mkCI (mkIdent "id" """" """id""") None]].
Proof. vm_compute. reflexivity. Qed.

Example append_Sp : append_constraints Sp (fun cs => cs) [] [CPrimary (Some (mkIdent "pk_users" """" """pk_users""")) [mkCI (mkIdent "id" """" """id""") None]; CPrimary (Some (mkIdent "pk_users" """" """pk_users""")) [mkCI (mkIdent "id" """" """id""") None]]
  = Ok [CPrimary (Some (mkIdent "pk_users" """" """pk_users""")) [mkCI (mkIdent "id" """" """id""") None]].
Proof. vm_compute. reflexivity. Qed.
