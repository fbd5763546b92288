(** The Go source reader against pkg/internal/lang/go/parse_test.go: the sources are
    those of pkg/internal/lang/go/tests, read with the struct tags of reflect.  The test of walkDirFn with an error of the walk itself
    has no counterpart: a [Tree] is a directory that can be walked. *)
From Verif Require Import GoStr Parser Generate GoTag.

(** pkg/internal/lang/go/tests/common.source; the last node is the type group, to
    which the comment behind it belongs *)
Definition common_nodes : list cnode :=
  [mkNode [mkType "User" (Some [mkField ["UserID"] (Some "`dbtest:""UserId"" spanddl:""STRING(36)  NOT NULL"" pkey:""true""`") ("UserID is a user ID." ++ nl);
      mkField ["Name"] (Some "`dbtest:""Name""   spanddl:""STRING(255) NOT NULL""`") ("Name is a user name." ++ nl);
      mkField ["Email"] (Some "`dbtest:""Email""  spanddl:""STRING(255) NOT NULL""`") ("Email is a user email." ++ nl);
      mkField ["Age"] (Some "`dbtest:""Age""    spanddl:""INT64       NOT NULL""`") ("Age is a user age." ++ nl);
      mkField ["Ignore"] (Some "`dbtest:""-""      spanddl:""-""`") ("Ignore is a ignore field." ++ nl)])]
     [[mkLine "// User is a user." 4;
       mkLine "//" 5;
       mkLine "// spanddl:      table: `Users`" 6;
       mkLine "// spanddl: constraint: CONSTRAINT AgeGTEZero CHECK(Age >= 0)" 7;
       mkLine "// spanddl:      index: CREATE INDEX `IndexUsersByName` ON Users(`Name`)" 8]];
   mkNode [mkType "Users" None]
     [[mkLine "// Users is a user array." 22;
       mkLine "// This type is expected not to be detected." 23;
       mkLine "//" 24;
       mkLine "// spanddl: table: `UserArrays`" 25]];
   mkNode [mkType "UserGroup" (Some [mkField ["ID"] (Some "`dbtest:""Id""   spanddl:""STRING(36)  NOT NULL""`") ("ID is a group ID." ++ nl);
      mkField ["Name"] (Some "`dbtest:""Name"" spanddl:""STRING(255) NOT NULL""`") ("Name is a group name." ++ nl)])]
     [[mkLine "// UserGroup is a user group." 28;
       mkLine "//" 29;
       mkLine "// spanddl:table:" 30]];
   mkNode [mkType "Author" (Some [mkField ["AuthorID"] (Some "`dbtest:""Id""     spanddl:""STRING(36)  NOT NULL""`") ("ID is a author ID." ++ nl);
      mkField ["Name"] (Some "`dbtest:""Name""   spanddl:""STRING(255) NOT NULL""`") ("Name is a author name." ++ nl)])]
     [[mkLine "// Author is a author." 38;
       mkLine "// spanddl:" 39]];
   mkNode [mkType "Book" (Some [mkField ["AuthorID"] (Some "`spanddl:""STRING(255) NOT NULL"" pkey:""true""`") ("AuthorID is a book author." ++ nl);
      mkField ["ID"] (Some "`spanddl:""STRING(36)  NOT NULL"" pkey:""true""`") ("ID is a book ID." ++ nl);
      mkField ["Title"] (Some "`spanddl:""STRING(255) NOT NULL"" pkey:""false""`") ("Title is a book title." ++ nl)])]
     [[mkLine "// Book is a book." 47;
       mkLine "//" 48;
       mkLine "// spanddl:table:`Books`" 49;
       mkLine "// spanddl:option: INTERLEAVE IN PARENT `Author` ON DELETE CASCADE" 50]];
   mkNode [mkType "Store" (Some [mkField ["ID"] (Some "`dbtest:""Id"" pkey:""false""`") ("ID is a store ID." ++ nl);
      mkField ["Name"] (Some "`dbtest:""Name""`") ("Name is a store name." ++ nl)])]
     [[mkLine "// Store" 60;
       mkLine "// spanddl: table: CREATE TABLE `Stores`" 61]];
   mkNode [mkType "User" (Some [mkField ["UserID"] (Some "`dbtest:""UserId"" spanddl:""STRING(36)  NOT NULL"" pkey:""true""`") ("UserID is a user ID." ++ nl);
      mkField ["Name"] (Some "`dbtest:""Name""   spanddl:""STRING(255) NOT NULL""`") ("Name is a user name." ++ nl);
      mkField ["Email"] (Some "`dbtest:""Email""  spanddl:""STRING(255) NOT NULL""`") ("Email is a user email." ++ nl);
      mkField ["Age"] (Some "`dbtest:""Age""    spanddl:""INT64       NOT NULL""`") ("Age is a user age." ++ nl);
      mkField ["Ignore"] (Some "`dbtest:""-""      spanddl:""-""`") ("Ignore is a ignore field." ++ nl)]);
      mkType "Users" None;
      mkType "UserGroup" (Some [mkField ["ID"] (Some "`dbtest:""Id""   spanddl:""STRING(36)  NOT NULL""`") ("ID is a group ID." ++ nl);
      mkField ["Name"] (Some "`dbtest:""Name"" spanddl:""STRING(255) NOT NULL""`") ("Name is a group name." ++ nl)]);
      mkType "Author" (Some [mkField ["AuthorID"] (Some "`dbtest:""Id""     spanddl:""STRING(36)  NOT NULL""`") ("ID is a author ID." ++ nl);
      mkField ["Name"] (Some "`dbtest:""Name""   spanddl:""STRING(255) NOT NULL""`") ("Name is a author name." ++ nl)]);
      mkType "Book" (Some [mkField ["AuthorID"] (Some "`spanddl:""STRING(255) NOT NULL"" pkey:""true""`") ("AuthorID is a book author." ++ nl);
      mkField ["ID"] (Some "`spanddl:""STRING(36)  NOT NULL"" pkey:""true""`") ("ID is a book ID." ++ nl);
      mkField ["Title"] (Some "`spanddl:""STRING(255) NOT NULL"" pkey:""false""`") ("Title is a book title." ++ nl)]);
      mkType "Store" (Some [mkField ["ID"] (Some "`dbtest:""Id"" pkey:""false""`") ("ID is a store ID." ++ nl);
      mkField ["Name"] (Some "`dbtest:""Name""`") ("Name is a store name." ++ nl)])]
     [[mkLine "// spanddl: index: CREATE INDEX `IndexBooksByTitle` ON Books(`Title`)" 70]]].
(** pkg/internal/lang/go/tests/go-ddl-tag.source: a comment that belongs to the file *)
Definition tag_nodes : list cnode := [mkNode [] [[mkLine "// spanddl: table: `Tables`" 3]]].
(** The flags of TestParse: pkg/internal/lang/go/parse_test.go:24-33 *)
Definition test_settings : settings := mkSettings "dbtest" "spanddl" "pkey".
(** What is compared: a statement with its line *)
Definition brief (s : gstmt) : string * N := match s with GTable t => (g_create t, g_line t) | GIndex i => (gi_create i, gi_line i) end.
Definition common_statements : list (string * N) :=
  [("CREATE TABLE `Users`", 6%N); ("CREATE INDEX `IndexUsersByName` ON Users(`Name`)", 8%N); ("CREATE TABLE UserGroup", 30%N);
   ("CREATE TABLE Author", 39%N); ("CREATE TABLE `Books`", 49%N); ("CREATE INDEX `IndexBooksByTitle` ON Books(`Title`)", 70%N)].
Definition parsed (i : input) : res (list (string * N)) :=
  bind (parse_input test_settings tag_get (fun s => s) sort_small i) (fun l => Ok (map brief l)).

(** success,common.source: six statements, whatever the order of the comment map *)
Example TestParse_common : parsed (OneFile "tests/common.source" (Some common_nodes)) = Ok common_statements.
Proof. vm_compute. reflexivity. Qed.
Example TestParse_common_reversed : parsed (OneFile "tests/common.source" (Some (rev common_nodes))) = Ok common_statements.
Proof. vm_compute. reflexivity. Qed.
(** success,info.IsDir: the test sets the suffix to .source, so the files have the suffix .go here;
    the file with an annotation but no struct adds nothing and the one without annotation is no failure *)
Example TestParse_directory : parsed (Tree [("tests/common.go", Some common_nodes); ("tests/go-ddl-tag.go", Some tag_nodes);
    ("tests/no-go-ddl-tag.go", Some []); ("tests/no.errsource", None)]) = Ok common_statements.
Proof. vm_compute. reflexivity. Qed.
(** failure,info.IsDir: an empty file named error.go *)
Example TestParse_directory_error : parsed (Tree [("error.go", None)]) = Err.
Proof. reflexivity. Qed.
(** failure,os.ErrNotExist *)
Example TestParse_missing : parsed Missing = Err.
Proof. reflexivity. Qed.
(** failure,parser.ParseFile *)
Example TestParse_rejected : parsed (OneFile "tests/no.errsource" None) = Err.
Proof. reflexivity. Qed.
(** failure,extractDDLSource *)
Example TestParse_no_annotation : parsed (OneFile "tests/no-go-ddl-tag.source" (Some [])) = Err.
Proof. reflexivity. Qed.
(** Test_extractContainingCommentFromCommentGroup *)
Example Test_extractContaining : containing [mkLine "// spanddl: index: CREATE INDEX `idx_users_name` ON `users` (`name`)" 1] "no-such-string" = None.
Proof. vm_compute. reflexivity. Qed.
