(** The generator model against the expected files of the project's own tests:
    pkg/internal/generator/dialect/{postgres,mysql,spanner}/integrationtest_go_001.{source,golden},
    and the expected texts of TestFprint. *)
From Verif Require Import GoStr Parser Generate.

Definition postgres_nodes : list cnode :=
  [mkNode [mkType "User" (Some [mkField ["UserID"] (Some "`dbtest:""user_id"" pgddl:""TEXT    NOT NULL"" pkey:""true""`") ("UserID is a user ID." ++ nl);
      mkField ["Name"] (Some "`dbtest:""name""    pgddl:""TEXT    NOT NULL""`") ("Name is a user name." ++ nl);
      mkField ["Email"] (Some "`dbtest:""email""   pgddl:""TEXT    NOT NULL""`") ("Email is a user email." ++ nl);
      mkField ["Age"] (Some "`dbtest:""age""     pgddl:""INTEGER NOT NULL""`") ("Age is a user age." ++ nl);
      mkField ["Ignore"] (Some "`dbtest:""-""       pgddl:""-""`") ("Ignore is a ignore field." ++ nl)])]
     [[mkLine "// User is a user." 4;
       mkLine "//" 5;
       mkLine "// pgddl:      table: ""users""" 6;
       mkLine "// pgddl: constraint: UNIQUE(""name"")" 7;
       mkLine "// pgddl:      index: CREATE INDEX ""index_users_by_name"" ON ""users"" (""name"")" 8]];
   mkNode [mkType "Users" None]
     [[mkLine "// Users is a user array." 22;
       mkLine "// This type is expected not to be detected." 23;
       mkLine "//" 24;
       mkLine "// pgddl: table: ""user_arrays""" 25]];
   mkNode [mkType "UserGroup" (Some [mkField ["ID"] (Some "`dbtest:""id""   pgddl:""TEXT NOT NULL""`") ("ID is a group ID." ++ nl);
      mkField ["Name"] (Some "`dbtest:""name"" pgddl:""TEXT NOT NULL""`") ("Name is a group name." ++ nl)])]
     [[mkLine "// UserGroup is a user group." 28;
       mkLine "//" 29;
       mkLine "// pgddl:table:" 30]];
   mkNode [mkType "Author" (Some [mkField ["AuthorID"] (Some "`dbtest:""id""     pgddl:""TEXT NOT NULL""`") ("ID is a author ID." ++ nl);
      mkField ["Name"] (Some "`dbtest:""name""   pgddl:""TEXT NOT NULL""`") ("Name is a author name." ++ nl)])]
     [[mkLine "// Author is a author." 38;
       mkLine "// pgddl:" 39]];
   mkNode [mkType "Book" (Some [mkField ["AuthorID"] (Some "`pgddl:""TEXT NOT NULL"" pkey:""true""`") ("AuthorID is a book author." ++ nl);
      mkField ["ID"] (Some "`pgddl:""TEXT NOT NULL"" pkey:""true""`") ("ID is a book ID." ++ nl);
      mkField ["Title"] (Some "`pgddl:""TEXT NOT NULL""`") ("Title is a book title." ++ nl)])]
     [[mkLine "// Book is a book." 47;
       mkLine "//" 48;
       mkLine "// pgddl:table:""books""" 49]];
   mkNode [mkType "Store" (Some [mkField ["ID"] (Some "`dbtest:""id"" pkey:""false""`") ("ID is a store ID." ++ nl);
      mkField ["Name"] (Some "`dbtest:""name""`") ("Name is a store name." ++ nl)])]
     [[mkLine "// Store" 59;
       mkLine "// pgddl: table: CREATE TABLE ""stores""" 60]];
   mkNode [mkType "User" (Some [mkField ["UserID"] (Some "`dbtest:""user_id"" pgddl:""TEXT    NOT NULL"" pkey:""true""`") ("UserID is a user ID." ++ nl);
      mkField ["Name"] (Some "`dbtest:""name""    pgddl:""TEXT    NOT NULL""`") ("Name is a user name." ++ nl);
      mkField ["Email"] (Some "`dbtest:""email""   pgddl:""TEXT    NOT NULL""`") ("Email is a user email." ++ nl);
      mkField ["Age"] (Some "`dbtest:""age""     pgddl:""INTEGER NOT NULL""`") ("Age is a user age." ++ nl);
      mkField ["Ignore"] (Some "`dbtest:""-""       pgddl:""-""`") ("Ignore is a ignore field." ++ nl)]);
      mkType "Users" None;
      mkType "UserGroup" (Some [mkField ["ID"] (Some "`dbtest:""id""   pgddl:""TEXT NOT NULL""`") ("ID is a group ID." ++ nl);
      mkField ["Name"] (Some "`dbtest:""name"" pgddl:""TEXT NOT NULL""`") ("Name is a group name." ++ nl)]);
      mkType "Author" (Some [mkField ["AuthorID"] (Some "`dbtest:""id""     pgddl:""TEXT NOT NULL""`") ("ID is a author ID." ++ nl);
      mkField ["Name"] (Some "`dbtest:""name""   pgddl:""TEXT NOT NULL""`") ("Name is a author name." ++ nl)]);
      mkType "Book" (Some [mkField ["AuthorID"] (Some "`pgddl:""TEXT NOT NULL"" pkey:""true""`") ("AuthorID is a book author." ++ nl);
      mkField ["ID"] (Some "`pgddl:""TEXT NOT NULL"" pkey:""true""`") ("ID is a book ID." ++ nl);
      mkField ["Title"] (Some "`pgddl:""TEXT NOT NULL""`") ("Title is a book title." ++ nl)]);
      mkType "Store" (Some [mkField ["ID"] (Some "`dbtest:""id"" pkey:""false""`") ("ID is a store ID." ++ nl);
      mkField ["Name"] (Some "`dbtest:""name""`") ("Name is a store name." ++ nl)])]
     [[mkLine "// pgddl: index: ""index_books_by_title"" ON ""books"" (""Title"")" 69]]].
Example postgres_golden : generate (mkSettings "dbtest" "pgddl" "pkey") look_simple (fun s => s) sort_small "postgres" "go" (OneFile "postgres/integrationtest_go_001.source" (Some (rev postgres_nodes)))
  = Ok (unlines_example
    ["-- Code generated by ddlctl. DO NOT EDIT.";
     "--";
     "";
     "-- source: postgres/integrationtest_go_001.source:6";
     "-- User is a user.";
     "--";
     "-- pgddl:      table: ""users""";
     "-- pgddl: constraint: UNIQUE(""name"")";
     "-- NOTE: the ""User"" struct's ""Ignore"" field has a tag for column name (`dbtest:""-""`), so the field is ignored.";
     "CREATE TABLE ""users"" (";
     "    -- UserID is a user ID.";
     "    ""user_id"" TEXT    NOT NULL,";
     "    -- Name is a user name.";
     "    ""name""    TEXT    NOT NULL,";
     "    -- Email is a user email.";
     "    ""email""   TEXT    NOT NULL,";
     "    -- Age is a user age.";
     "    ""age""     INTEGER NOT NULL,";
     "    PRIMARY KEY (""user_id""),";
     "    UNIQUE(""name"")";
     ");";
     "";
     "-- source: postgres/integrationtest_go_001.source:8";
     "-- pgddl:      index: CREATE INDEX ""index_users_by_name"" ON ""users"" (""name"")";
     "CREATE INDEX ""index_users_by_name"" ON ""users"" (""name"");";
     "";
     "-- source: postgres/integrationtest_go_001.source:30";
     "-- UserGroup is a user group.";
     "--";
     "-- pgddl:table:";
     "-- WARN: the comment (postgres/integrationtest_go_001.source:28) does not have a key for table (pgddl: table: CREATE TABLE <table>), so the struct name ""UserGroup"" is used as the table name.";
     "CREATE TABLE UserGroup (";
     "    -- ID is a group ID.";
     "    ""id""   TEXT NOT NULL,";
     "    -- Name is a group name.";
     "    ""name"" TEXT NOT NULL";
     ");";
     "";
     "-- source: postgres/integrationtest_go_001.source:39";
     "-- Author is a author.";
     "-- pgddl:";
     "-- WARN: the comment (postgres/integrationtest_go_001.source:38) does not have a key for table (pgddl: table: CREATE TABLE <table>), so the struct name ""Author"" is used as the table name.";
     "CREATE TABLE Author (";
     "    -- ID is a author ID.";
     "    ""id""   TEXT NOT NULL,";
     "    -- Name is a author name.";
     "    ""name"" TEXT NOT NULL";
     ");";
     "";
     "-- source: postgres/integrationtest_go_001.source:49";
     "-- Book is a book.";
     "--";
     "-- pgddl:table:""books""";
     "CREATE TABLE ""books"" (";
     "    -- WARN: the ""Book"" struct's ""AuthorID"" field does not have a tag for column name (`dbtest:""<ColumnName>""`), so the field name ""AuthorID"" is used as the column name.";
     "    -- AuthorID is a book author.";
     "    ""AuthorID"" TEXT NOT NULL,";
     "    -- WARN: the ""Book"" struct's ""ID"" field does not have a tag for column name (`dbtest:""<ColumnName>""`), so the field name ""ID"" is used as the column name.";
     "    -- ID is a book ID.";
     "    ""ID""       TEXT NOT NULL,";
     "    -- WARN: the ""Book"" struct's ""Title"" field does not have a tag for column name (`dbtest:""<ColumnName>""`), so the field name ""Title"" is used as the column name.";
     "    -- Title is a book title.";
     "    ""Title""    TEXT NOT NULL,";
     "    PRIMARY KEY (""AuthorID"", ""ID"")";
     ");";
     "";
     "-- source: postgres/integrationtest_go_001.source:69";
     "-- pgddl: index: ""index_books_by_title"" ON ""books"" (""Title"")";
     "CREATE INDEX ""index_books_by_title"" ON ""books"" (""Title"");"]).
Proof. vm_compute. reflexivity. Qed.

Definition mysql_nodes : list cnode :=
  [mkNode [mkType "User" (Some [mkField ["UserID"] (Some "`dbtest:""user_id"" myddl:""VARCHAR(36)  NOT NULL"" pkey:""true""`") ("UserID is a user ID." ++ nl);
      mkField ["Name"] (Some "`dbtest:""name""    myddl:""VARCHAR(255) NOT NULL""`") ("Name is a user name." ++ nl);
      mkField ["Email"] (Some "`dbtest:""email""   myddl:""VARCHAR(255) NOT NULL""`") ("Email is a user email." ++ nl);
      mkField ["Age"] (Some "`dbtest:""age""     myddl:""INT          NOT NULL""`") ("Age is a user age." ++ nl);
      mkField ["Ignore"] (Some "`dbtest:""-""       myddl:""-""`") ("Ignore is a ignore field." ++ nl)])]
     [[mkLine "// User is a user." 4;
       mkLine "//" 5;
       mkLine "// myddl:      table: `users`" 6;
       mkLine "// myddl: constraint: UNIQUE KEY `users_unique_name` (`name`)" 7;
       mkLine "// myddl:      index: CREATE INDEX `index_users_by_name` ON `users` (`name`)" 8]];
   mkNode [mkType "Users" None]
     [[mkLine "// Users is a user array." 22;
       mkLine "// This type is expected not to be detected." 23;
       mkLine "//" 24;
       mkLine "// myddl: table: `UserArrays`" 25]];
   mkNode [mkType "UserGroup" (Some [mkField ["ID"] (Some "`dbtest:""id""   myddl:""VARCHAR(36)  NOT NULL""`") ("ID is a group ID." ++ nl);
      mkField ["Name"] (Some "`dbtest:""name"" myddl:""VARCHAR(255) NOT NULL""`") ("Name is a group name." ++ nl)])]
     [[mkLine "// UserGroup is a user group." 28;
       mkLine "//" 29;
       mkLine "// myddl:table:" 30]];
   mkNode [mkType "Author" (Some [mkField ["AuthorID"] (Some "`dbtest:""id""   myddl:""VARCHAR(36)  NOT NULL""`") ("ID is a author ID." ++ nl);
      mkField ["Name"] (Some "`dbtest:""name"" myddl:""VARCHAR(255) NOT NULL""`") ("Name is a author name." ++ nl)])]
     [[mkLine "// Author is a author." 38;
       mkLine "// myddl:" 39]];
   mkNode [mkType "Book" (Some [mkField ["AuthorID"] (Some "`myddl:""VARCHAR(255) NOT NULL"" pkey:""true""`") ("AuthorID is a book author." ++ nl);
      mkField ["ID"] (Some "`myddl:""VARCHAR(36)  NOT NULL"" pkey:""true""`") ("ID is a book ID." ++ nl);
      mkField ["Title"] (Some "`myddl:""VARCHAR(255) NOT NULL""`") ("Title is a book title." ++ nl)])]
     [[mkLine "// Book is a book." 47;
       mkLine "//" 48;
       mkLine "// myddl:table:`books`" 49]];
   mkNode [mkType "Store" (Some [mkField ["ID"] (Some "`dbtest:""id"" pkey:""false""`") ("ID is a store ID." ++ nl);
      mkField ["Name"] (Some "`dbtest:""name""`") ("Name is a store name." ++ nl)])]
     [[mkLine "// Store" 59;
       mkLine "// myddl: table: CREATE TABLE `stores`" 60]];
   mkNode [mkType "User" (Some [mkField ["UserID"] (Some "`dbtest:""user_id"" myddl:""VARCHAR(36)  NOT NULL"" pkey:""true""`") ("UserID is a user ID." ++ nl);
      mkField ["Name"] (Some "`dbtest:""name""    myddl:""VARCHAR(255) NOT NULL""`") ("Name is a user name." ++ nl);
      mkField ["Email"] (Some "`dbtest:""email""   myddl:""VARCHAR(255) NOT NULL""`") ("Email is a user email." ++ nl);
      mkField ["Age"] (Some "`dbtest:""age""     myddl:""INT          NOT NULL""`") ("Age is a user age." ++ nl);
      mkField ["Ignore"] (Some "`dbtest:""-""       myddl:""-""`") ("Ignore is a ignore field." ++ nl)]);
      mkType "Users" None;
      mkType "UserGroup" (Some [mkField ["ID"] (Some "`dbtest:""id""   myddl:""VARCHAR(36)  NOT NULL""`") ("ID is a group ID." ++ nl);
      mkField ["Name"] (Some "`dbtest:""name"" myddl:""VARCHAR(255) NOT NULL""`") ("Name is a group name." ++ nl)]);
      mkType "Author" (Some [mkField ["AuthorID"] (Some "`dbtest:""id""   myddl:""VARCHAR(36)  NOT NULL""`") ("ID is a author ID." ++ nl);
      mkField ["Name"] (Some "`dbtest:""name"" myddl:""VARCHAR(255) NOT NULL""`") ("Name is a author name." ++ nl)]);
      mkType "Book" (Some [mkField ["AuthorID"] (Some "`myddl:""VARCHAR(255) NOT NULL"" pkey:""true""`") ("AuthorID is a book author." ++ nl);
      mkField ["ID"] (Some "`myddl:""VARCHAR(36)  NOT NULL"" pkey:""true""`") ("ID is a book ID." ++ nl);
      mkField ["Title"] (Some "`myddl:""VARCHAR(255) NOT NULL""`") ("Title is a book title." ++ nl)]);
      mkType "Store" (Some [mkField ["ID"] (Some "`dbtest:""id"" pkey:""false""`") ("ID is a store ID." ++ nl);
      mkField ["Name"] (Some "`dbtest:""name""`") ("Name is a store name." ++ nl)])]
     [[mkLine "// myddl: index: `index_books_by_title` ON `books` (`title`)" 69]]].
Example mysql_golden : generate (mkSettings "dbtest" "myddl" "pkey") look_simple (fun s => s) sort_small "mysql" "go" (OneFile "mysql/integrationtest_go_001.source" (Some (rev mysql_nodes)))
  = Ok (unlines_example
    ["-- Code generated by ddlctl. DO NOT EDIT.";
     "--";
     "";
     "-- source: mysql/integrationtest_go_001.source:6";
     "-- User is a user.";
     "--";
     "-- myddl:      table: `users`";
     "-- myddl: constraint: UNIQUE KEY `users_unique_name` (`name`)";
     "-- NOTE: the ""User"" struct's ""Ignore"" field has a tag for column name (`dbtest:""-""`), so the field is ignored.";
     "CREATE TABLE `users` (";
     "    -- UserID is a user ID.";
     "    `user_id` VARCHAR(36)  NOT NULL,";
     "    -- Name is a user name.";
     "    `name`    VARCHAR(255) NOT NULL,";
     "    -- Email is a user email.";
     "    `email`   VARCHAR(255) NOT NULL,";
     "    -- Age is a user age.";
     "    `age`     INT          NOT NULL,";
     "    PRIMARY KEY (`user_id`),";
     "    UNIQUE KEY `users_unique_name` (`name`)";
     ");";
     "";
     "-- source: mysql/integrationtest_go_001.source:8";
     "-- myddl:      index: CREATE INDEX `index_users_by_name` ON `users` (`name`)";
     "CREATE INDEX `index_users_by_name` ON `users` (`name`);";
     "";
     "-- source: mysql/integrationtest_go_001.source:30";
     "-- UserGroup is a user group.";
     "--";
     "-- myddl:table:";
     "-- WARN: the comment (mysql/integrationtest_go_001.source:28) does not have a key for table (myddl: table: CREATE TABLE <table>), so the struct name ""UserGroup"" is used as the table name.";
     "CREATE TABLE UserGroup (";
     "    -- ID is a group ID.";
     "    `id`   VARCHAR(36)  NOT NULL,";
     "    -- Name is a group name.";
     "    `name` VARCHAR(255) NOT NULL";
     ");";
     "";
     "-- source: mysql/integrationtest_go_001.source:39";
     "-- Author is a author.";
     "-- myddl:";
     "-- WARN: the comment (mysql/integrationtest_go_001.source:38) does not have a key for table (myddl: table: CREATE TABLE <table>), so the struct name ""Author"" is used as the table name.";
     "CREATE TABLE Author (";
     "    -- ID is a author ID.";
     "    `id`   VARCHAR(36)  NOT NULL,";
     "    -- Name is a author name.";
     "    `name` VARCHAR(255) NOT NULL";
     ");";
     "";
     "-- source: mysql/integrationtest_go_001.source:49";
     "-- Book is a book.";
     "--";
     "-- myddl:table:`books`";
     "CREATE TABLE `books` (";
     "    -- WARN: the ""Book"" struct's ""AuthorID"" field does not have a tag for column name (`dbtest:""<ColumnName>""`), so the field name ""AuthorID"" is used as the column name.";
     "    -- AuthorID is a book author.";
     "    `AuthorID` VARCHAR(255) NOT NULL,";
     "    -- WARN: the ""Book"" struct's ""ID"" field does not have a tag for column name (`dbtest:""<ColumnName>""`), so the field name ""ID"" is used as the column name.";
     "    -- ID is a book ID.";
     "    `ID`       VARCHAR(36)  NOT NULL,";
     "    -- WARN: the ""Book"" struct's ""Title"" field does not have a tag for column name (`dbtest:""<ColumnName>""`), so the field name ""Title"" is used as the column name.";
     "    -- Title is a book title.";
     "    `Title`    VARCHAR(255) NOT NULL,";
     "    PRIMARY KEY (`AuthorID`, `ID`)";
     ");";
     "";
     "-- source: mysql/integrationtest_go_001.source:69";
     "-- myddl: index: `index_books_by_title` ON `books` (`title`)";
     "CREATE INDEX `index_books_by_title` ON `books` (`title`);"]).
Proof. vm_compute. reflexivity. Qed.

Definition spanner_nodes : list cnode :=
  [mkNode [mkType "User" (Some [mkField ["UserID"] (Some "`dbtest:""UserId"" spanddl:""STRING(36)  NOT NULL"" pkey:""true""`") ("UserID is a user ID." ++ nl);
      mkField ["Name"] (Some "`dbtest:""Name""   spanddl:""STRING(255) NOT NULL""`") ("Name is a user name." ++ nl);
      mkField ["Email"] (Some "`dbtest:""Email""  spanddl:""STRING(255) NOT NULL""`") ("Email is a user email." ++ nl);
      mkField ["Age"] (Some "`dbtest:""Age""    spanddl:""INT64       NOT NULL""`") ("Age is a user age." ++ nl);
      mkField ["Ignore"] (Some "`dbtest:""-""      spanddl:""-""`") ("Ignore is a ignore field." ++ nl)])]
     [[mkLine "// User is a user." 4;
       mkLine "//" 5;
       mkLine "// spanddl:      table: `Users`" 6;
       mkLine "// spanddl: constraint: CONSTRAINT AgeGTEZero CHECK(Age >= 0)" 7;
       mkLine "// spanddl:      index: CREATE INDEX `IndexUsersByName` ON `Users` (`Name`)" 8]];
   mkNode [mkType "Users" None]
     [[mkLine "// Users is a user array." 22;
       mkLine "// This type is expected not to be detected." 23;
       mkLine "//" 24;
       mkLine "// spanddl: table: `UserArrays`" 25]];
   mkNode [mkType "UserGroup" (Some [mkField ["ID"] (Some "`dbtest:""Id""   spanddl:""STRING(36)  NOT NULL""`") ("ID is a group ID." ++ nl);
      mkField ["Name"] (Some "`dbtest:""Name"" spanddl:""STRING(255) NOT NULL""`") ("Name is a group name." ++ nl)])]
     [[mkLine "// UserGroup is a user group." 28;
       mkLine "//" 29;
       mkLine "// spanddl:table:" 30]];
   mkNode [mkType "Author" (Some [mkField ["AuthorID"] (Some "`dbtest:""Id""     spanddl:""STRING(36)  NOT NULL""`") ("ID is a author ID." ++ nl);
      mkField ["Name"] (Some "`dbtest:""Name""   spanddl:""STRING(255) NOT NULL""`") ("Name is a author name." ++ nl)])]
     [[mkLine "// Author is a author." 38;
       mkLine "// spanddl:" 39]];
   mkNode [mkType "Book" (Some [mkField ["AuthorID"] (Some "`spanddl:""STRING(255) NOT NULL"" pkey:""true""`") ("AuthorID is a book author." ++ nl);
      mkField ["ID"] (Some "`spanddl:""STRING(36)  NOT NULL"" pkey:""true""`") ("ID is a book ID." ++ nl);
      mkField ["Title"] (Some "`spanddl:""STRING(255) NOT NULL""`") ("Title is a book title." ++ nl)])]
     [[mkLine "// Book is a book." 47;
       mkLine "//" 48;
       mkLine "//spanddl:table `Books`" 49;
       mkLine "//spanddl:option INTERLEAVE IN PARENT `Author` ON DELETE CASCADE" 50]];
   mkNode [mkType "Store" (Some [mkField ["ID"] (Some "`dbtest:""Id"" pkey:""false""`") ("ID is a store ID." ++ nl);
      mkField ["Name"] (Some "`dbtest:""Name""`") ("Name is a store name." ++ nl)])]
     [[mkLine "// Store" 60;
       mkLine "// spanddl: table: CREATE TABLE `Stores`" 61]];
   mkNode [mkType "User" (Some [mkField ["UserID"] (Some "`dbtest:""UserId"" spanddl:""STRING(36)  NOT NULL"" pkey:""true""`") ("UserID is a user ID." ++ nl);
      mkField ["Name"] (Some "`dbtest:""Name""   spanddl:""STRING(255) NOT NULL""`") ("Name is a user name." ++ nl);
      mkField ["Email"] (Some "`dbtest:""Email""  spanddl:""STRING(255) NOT NULL""`") ("Email is a user email." ++ nl);
      mkField ["Age"] (Some "`dbtest:""Age""    spanddl:""INT64       NOT NULL""`") ("Age is a user age." ++ nl);
      mkField ["Ignore"] (Some "`dbtest:""-""      spanddl:""-""`") ("Ignore is a ignore field." ++ nl)]);
      mkType "Users" None;
      mkType "UserGroup" (Some [mkField ["ID"] (Some "`dbtest:""Id""   spanddl:""STRING(36)  NOT NULL""`") ("ID is a group ID." ++ nl);
      mkField ["Name"] (Some "`dbtest:""Name"" spanddl:""STRING(255) NOT NULL""`") ("Name is a group name." ++ nl)]);
      mkType "Author" (Some [mkField ["AuthorID"] (Some "`dbtest:""Id""     spanddl:""STRING(36)  NOT NULL""`") ("ID is a author ID." ++ nl);
      mkField ["Name"] (Some "`dbtest:""Name""   spanddl:""STRING(255) NOT NULL""`") ("Name is a author name." ++ nl)]);
      mkType "Book" (Some [mkField ["AuthorID"] (Some "`spanddl:""STRING(255) NOT NULL"" pkey:""true""`") ("AuthorID is a book author." ++ nl);
      mkField ["ID"] (Some "`spanddl:""STRING(36)  NOT NULL"" pkey:""true""`") ("ID is a book ID." ++ nl);
      mkField ["Title"] (Some "`spanddl:""STRING(255) NOT NULL""`") ("Title is a book title." ++ nl)]);
      mkType "Store" (Some [mkField ["ID"] (Some "`dbtest:""Id"" pkey:""false""`") ("ID is a store ID." ++ nl);
      mkField ["Name"] (Some "`dbtest:""Name""`") ("Name is a store name." ++ nl)])]
     [[mkLine "// spanddl: index: `IndexBooksByTitle` ON `Books` (`Title`)" 70]]].
Example spanner_golden : generate (mkSettings "dbtest" "spanddl" "pkey") look_simple (fun s => s) sort_small "spanner" "go" (OneFile "spanner/integrationtest_go_001.source" (Some (rev spanner_nodes)))
  = Ok (unlines_example
    ["-- Code generated by ddlctl. DO NOT EDIT.";
     "--";
     "";
     "-- source: spanner/integrationtest_go_001.source:6";
     "-- User is a user.";
     "--";
     "-- spanddl:      table: `Users`";
     "-- spanddl: constraint: CONSTRAINT AgeGTEZero CHECK(Age >= 0)";
     "-- NOTE: the ""User"" struct's ""Ignore"" field has a tag for column name (`dbtest:""-""`), so the field is ignored.";
     "CREATE TABLE `Users` (";
     "    -- UserID is a user ID.";
     "    `UserId` STRING(36)  NOT NULL,";
     "    -- Name is a user name.";
     "    `Name`   STRING(255) NOT NULL,";
     "    -- Email is a user email.";
     "    `Email`  STRING(255) NOT NULL,";
     "    -- Age is a user age.";
     "    `Age`    INT64       NOT NULL,";
     "    CONSTRAINT AgeGTEZero CHECK(Age >= 0)";
     ") PRIMARY KEY (`UserId`);";
     "";
     "-- source: spanner/integrationtest_go_001.source:8";
     "-- spanddl:      index: CREATE INDEX `IndexUsersByName` ON `Users` (`Name`)";
     "CREATE INDEX `IndexUsersByName` ON `Users` (`Name`);";
     "";
     "-- source: spanner/integrationtest_go_001.source:30";
     "-- UserGroup is a user group.";
     "--";
     "-- spanddl:table:";
     "-- WARN: the comment (spanner/integrationtest_go_001.source:28) does not have a key for table (spanddl: table: CREATE TABLE <table>), so the struct name ""UserGroup"" is used as the table name.";
     "CREATE TABLE UserGroup (";
     "    -- ID is a group ID.";
     "    `Id`   STRING(36)  NOT NULL,";
     "    -- Name is a group name.";
     "    `Name` STRING(255) NOT NULL";
     ");";
     "";
     "-- source: spanner/integrationtest_go_001.source:39";
     "-- Author is a author.";
     "-- spanddl:";
     "-- WARN: the comment (spanner/integrationtest_go_001.source:38) does not have a key for table (spanddl: table: CREATE TABLE <table>), so the struct name ""Author"" is used as the table name.";
     "CREATE TABLE Author (";
     "    -- ID is a author ID.";
     "    `Id`   STRING(36)  NOT NULL,";
     "    -- Name is a author name.";
     "    `Name` STRING(255) NOT NULL";
     ");";
     "";
     "-- source: spanner/integrationtest_go_001.source:49";
     "-- Book is a book.";
     "--";
     "-- spanddl:table `Books`";
     "-- spanddl:option INTERLEAVE IN PARENT `Author` ON DELETE CASCADE";
     "CREATE TABLE `Books` (";
     "    -- WARN: the ""Book"" struct's ""AuthorID"" field does not have a tag for column name (`dbtest:""<ColumnName>""`), so the field name ""AuthorID"" is used as the column name.";
     "    -- AuthorID is a book author.";
     "    `AuthorID` STRING(255) NOT NULL,";
     "    -- WARN: the ""Book"" struct's ""ID"" field does not have a tag for column name (`dbtest:""<ColumnName>""`), so the field name ""ID"" is used as the column name.";
     "    -- ID is a book ID.";
     "    `ID`       STRING(36)  NOT NULL,";
     "    -- WARN: the ""Book"" struct's ""Title"" field does not have a tag for column name (`dbtest:""<ColumnName>""`), so the field name ""Title"" is used as the column name.";
     "    -- Title is a book title.";
     "    `Title`    STRING(255) NOT NULL";
     ") PRIMARY KEY (`AuthorID`, `ID`),";
     "INTERLEAVE IN PARENT `Author` ON DELETE CASCADE;";
     "";
     "-- source: spanner/integrationtest_go_001.source:70";
     "-- spanddl: index: `IndexBooksByTitle` ON `Books` (`Title`)";
     "CREATE INDEX `IndexBooksByTitle` ON `Books` (`Title`);"]).
Proof. vm_compute. reflexivity. Qed.


(** The cases success,None of TestFprint:
    pkg/internal/generator/dialect/{postgres,mysql,spanner}/{postgres,mysql,spanner}_test.go:20-110
    (the same statement in the three packages). *)
Definition fprint_stmt : gstmt :=
  GTable (mkGTable "" 0 ["Spans is Spanner test table."] "CREATE TABLE Spans"
    [mkGColumn ["Id is Spans's Id."] "Id" "STRING(64) NOT NULL";
     mkGColumn ["Name is Spans's Name."] "Name" "STRING(100) NOT NULL";
     mkGColumn [] "Number" "INT64 NOT NULL";
     mkGColumn ["Description is Spans's Description."] "Description" "STRING(1024) NOT NULL";
     mkGColumn ["CreatedAt is Spans's CreatedAt."] "CreatedAt" "TIMESTAMP NOT NULL OPTIONS (allow_commit_timestamp=true)";
     mkGColumn ["UpdatedAt is Spans's UpdatedAt."] "UpdatedAt" "TIMESTAMP NOT NULL OPTIONS (allow_commit_timestamp=true)"]
    [mkGText [] "CONSTRAINT NumberGteZero CHECK(Number >= 0)";
     mkGText ["CREATE TABLE CONSTRAINT COMMENT"] "CONSTRAINT CreateBeforeUpdate CHECK(CreatedAt <= UpdatedAt)"]
    [mkGText [] "PRIMARY KEY (Id)";
     mkGText ["CREATE TABLE OPTION COMMENT: If SpanParents record is deleted, Spans record is deleted."] "INTERLEAVE IN PARENT SpanParents ON DELETE CASCADE"] []).

Example postgres_fprint : print_ddl PgPrinter (fun s => s) [fprint_stmt] = "-- Code generated by ddlctl. DO NOT EDIT.
--

-- Spans is Spanner test table.
CREATE TABLE Spans (
    -- Id is Spans's Id.
    ""Id""          STRING(64) NOT NULL,
    -- Name is Spans's Name.
    ""Name""        STRING(100) NOT NULL,
    ""Number""      INT64 NOT NULL,
    -- Description is Spans's Description.
    ""Description"" STRING(1024) NOT NULL,
    -- CreatedAt is Spans's CreatedAt.
    ""CreatedAt""   TIMESTAMP NOT NULL OPTIONS (allow_commit_timestamp=true),
    -- UpdatedAt is Spans's UpdatedAt.
    ""UpdatedAt""   TIMESTAMP NOT NULL OPTIONS (allow_commit_timestamp=true),
    CONSTRAINT NumberGteZero CHECK(Number >= 0),
    -- CREATE TABLE CONSTRAINT COMMENT
    CONSTRAINT CreateBeforeUpdate CHECK(CreatedAt <= UpdatedAt)
)
PRIMARY KEY (Id),
-- CREATE TABLE OPTION COMMENT: If SpanParents record is deleted, Spans record is deleted.
INTERLEAVE IN PARENT SpanParents ON DELETE CASCADE;
".
Proof. vm_compute. reflexivity. Qed.

Example mysql_fprint : print_ddl MyPrinter (fun s => s) [fprint_stmt] = "-- Code generated by ddlctl. DO NOT EDIT.
--

-- Spans is Spanner test table.
CREATE TABLE Spans (
    -- Id is Spans's Id.
    `Id`          STRING(64) NOT NULL,
    -- Name is Spans's Name.
    `Name`        STRING(100) NOT NULL,
    `Number`      INT64 NOT NULL,
    -- Description is Spans's Description.
    `Description` STRING(1024) NOT NULL,
    -- CreatedAt is Spans's CreatedAt.
    `CreatedAt`   TIMESTAMP NOT NULL OPTIONS (allow_commit_timestamp=true),
    -- UpdatedAt is Spans's UpdatedAt.
    `UpdatedAt`   TIMESTAMP NOT NULL OPTIONS (allow_commit_timestamp=true),
    CONSTRAINT NumberGteZero CHECK(Number >= 0),
    -- CREATE TABLE CONSTRAINT COMMENT
    CONSTRAINT CreateBeforeUpdate CHECK(CreatedAt <= UpdatedAt)
)
PRIMARY KEY (Id),
-- CREATE TABLE OPTION COMMENT: If SpanParents record is deleted, Spans record is deleted.
INTERLEAVE IN PARENT SpanParents ON DELETE CASCADE;
".
Proof. vm_compute. reflexivity. Qed.

Example spanner_fprint : print_ddl SpPrinter (fun s => s) [fprint_stmt] = "-- Code generated by ddlctl. DO NOT EDIT.
--

-- Spans is Spanner test table.
CREATE TABLE Spans (
    -- Id is Spans's Id.
    `Id`          STRING(64) NOT NULL,
    -- Name is Spans's Name.
    `Name`        STRING(100) NOT NULL,
    `Number`      INT64 NOT NULL,
    -- Description is Spans's Description.
    `Description` STRING(1024) NOT NULL,
    -- CreatedAt is Spans's CreatedAt.
    `CreatedAt`   TIMESTAMP NOT NULL OPTIONS (allow_commit_timestamp=true),
    -- UpdatedAt is Spans's UpdatedAt.
    `UpdatedAt`   TIMESTAMP NOT NULL OPTIONS (allow_commit_timestamp=true),
    CONSTRAINT NumberGteZero CHECK(Number >= 0),
    -- CREATE TABLE CONSTRAINT COMMENT
    CONSTRAINT CreateBeforeUpdate CHECK(CreatedAt <= UpdatedAt)
)
PRIMARY KEY (Id),
-- CREATE TABLE OPTION COMMENT: If SpanParents record is deleted, Spans record is deleted.
INTERLEAVE IN PARENT SpanParents ON DELETE CASCADE;
".
Proof. vm_compute. reflexivity. Qed.
