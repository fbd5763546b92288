(** The inputs and expected outputs of the project's own tests of the lexer
    (pkg/ddl/*/lexar_test.go: Test_lookupIdent, TestLex, TestLexer_NextToken),
    evaluated in the model. *)
From Verif Require Import GoStr Token Lexer.

(** Every pair of the table is as the test says. *)
Definition looked_up (d : dialect) (l : list (string * tokentype)) : bool :=
  forallb (fun p => String.eqb (lookupIdent d (fst p)) (snd p)) l.

(** ** pkg/ddl/postgres/lexar_test.go *)

(* Test_lookupIdent: 62 cases *)
Example lookup_Pg : looked_up Pg
  [("EQUAL", TOKEN_EQUAL);
   ("GREATER", TOKEN_GREATER);
   ("LESS", TOKEN_LESS);
   ("CREATE", TOKEN_CREATE);
   ("ALTER", TOKEN_ALTER);
   ("DROP", TOKEN_DROP);
   ("RENAME", TOKEN_RENAME);
   ("CREATE", TOKEN_CREATE);
   ("ALTER", TOKEN_ALTER);
   ("DROP", TOKEN_DROP);
   ("RENAME", TOKEN_RENAME);
   ("TRUNCATE", TOKEN_TRUNCATE);
   ("DELETE", TOKEN_DELETE);
   ("UPDATE", TOKEN_UPDATE);
   ("TABLE", TOKEN_TABLE);
   ("INDEX", TOKEN_INDEX);
   ("VIEW", TOKEN_VIEW);
   ("IF", TOKEN_IF);
   ("EXISTS", TOKEN_EXISTS);
   ("ON", TOKEN_ON);
   ("TO", TOKEN_TO);
   ("BOOLEAN", TOKEN_BOOLEAN);
   ("SMALLINT", TOKEN_SMALLINT);
   ("INTEGER", TOKEN_INTEGER);
   ("INT", TOKEN_INTEGER);
   ("BIGINT", TOKEN_BIGINT);
   ("DECIMAL", TOKEN_DECIMAL);
   ("NUMERIC", TOKEN_NUMERIC);
   ("REAL", TOKEN_REAL);
   ("DOUBLE", TOKEN_DOUBLE);
   ("PRECISION", TOKEN_PRECISION);
   ("SMALLSERIAL", TOKEN_SMALLSERIAL);
   ("SERIAL", TOKEN_SERIAL);
   ("BIGSERIAL", TOKEN_BIGSERIAL);
   ("UUID", TOKEN_UUID);
   ("JSONB", TOKEN_JSONB);
   ("CHARACTER", TOKEN_CHARACTER);
   ("VARYING", TOKEN_VARYING);
   ("VARCHAR", TOKEN_VARYING);
   ("TEXT", TOKEN_TEXT);
   ("TIMESTAMP", TOKEN_TIMESTAMP);
   ("TIMESTAMPTZ", TOKEN_TIMESTAMPTZ);
   ("WITH", TOKEN_WITH);
   ("TIME", TOKEN_TIME);
   ("ZONE", TOKEN_ZONE);
   ("DEFAULT", TOKEN_DEFAULT);
   ("NOT", TOKEN_NOT);
   ("NULL", TOKEN_NULL);
   ("ASC", TOKEN_ASC);
   ("DESC", TOKEN_DESC);
   ("CASCADE", TOKEN_CASCADE);
   ("NO", TOKEN_NO);
   ("ACTION", TOKEN_ACTION);
   ("CONSTRAINT", TOKEN_CONSTRAINT);
   ("PRIMARY", TOKEN_PRIMARY);
   ("KEY", TOKEN_KEY);
   ("FOREIGN", TOKEN_FOREIGN);
   ("REFERENCES", TOKEN_REFERENCES);
   ("UNIQUE", TOKEN_UNIQUE);
   ("CHECK", TOKEN_CHECK);
   ("NULLIF", TOKEN_NULLIF);
   ("users", TOKEN_IDENT)] = true.
Proof. vm_compute. reflexivity. Qed.

(* TestLex *)
Example lex_Pg : lex Pg "CREATE TABLE IF NOT EXISTS ""users"" (
    ""user_id""    UUID         NOT NULL,
    ""name""       VARCHAR(255) NOT NULL,
    ""email""      VARCHAR(255) NOT NULL,
    ""password""   VARCHAR(255) NOT NULL,
    ""created_at"" TIMESTAMPTZ   NOT NULL,
    ""updated_at"" TIMESTAMPTZ   NOT NULL,
    PRIMARY KEY (""user_id""),
    UNIQUE (""email"")
);" =
  [mkTok TOKEN_CREATE "CREATE";
   mkTok TOKEN_TABLE "TABLE";
   mkTok TOKEN_IF "IF";
   mkTok TOKEN_NOT "NOT";
   mkTok TOKEN_EXISTS "EXISTS";
   mkTok TOKEN_IDENT """users""";
   mkTok TOKEN_OPEN_PAREN "(";
   mkTok TOKEN_IDENT """user_id""";
   mkTok TOKEN_UUID "UUID";
   mkTok TOKEN_NOT "NOT";
   mkTok TOKEN_NULL "NULL";
   mkTok TOKEN_COMMA ",";
   mkTok TOKEN_IDENT """name""";
   mkTok TOKEN_VARYING "VARCHAR";
   mkTok TOKEN_OPEN_PAREN "(";
   mkTok TOKEN_IDENT "255";
   mkTok TOKEN_CLOSE_PAREN ")";
   mkTok TOKEN_NOT "NOT";
   mkTok TOKEN_NULL "NULL";
   mkTok TOKEN_COMMA ",";
   mkTok TOKEN_IDENT """email""";
   mkTok TOKEN_VARYING "VARCHAR";
   mkTok TOKEN_OPEN_PAREN "(";
   mkTok TOKEN_IDENT "255";
   mkTok TOKEN_CLOSE_PAREN ")";
   mkTok TOKEN_NOT "NOT";
   mkTok TOKEN_NULL "NULL";
   mkTok TOKEN_COMMA ",";
   mkTok TOKEN_IDENT """password""";
   mkTok TOKEN_VARYING "VARCHAR";
   mkTok TOKEN_OPEN_PAREN "(";
   mkTok TOKEN_IDENT "255";
   mkTok TOKEN_CLOSE_PAREN ")";
   mkTok TOKEN_NOT "NOT";
   mkTok TOKEN_NULL "NULL";
   mkTok TOKEN_COMMA ",";
   mkTok TOKEN_IDENT """created_at""";
   mkTok TOKEN_TIMESTAMPTZ "TIMESTAMPTZ";
   mkTok TOKEN_NOT "NOT";
   mkTok TOKEN_NULL "NULL";
   mkTok TOKEN_COMMA ",";
   mkTok TOKEN_IDENT """updated_at""";
   mkTok TOKEN_TIMESTAMPTZ "TIMESTAMPTZ";
   mkTok TOKEN_NOT "NOT";
   mkTok TOKEN_NULL "NULL";
   mkTok TOKEN_COMMA ",";
   mkTok TOKEN_PRIMARY "PRIMARY";
   mkTok TOKEN_KEY "KEY";
   mkTok TOKEN_OPEN_PAREN "(";
   mkTok TOKEN_IDENT """user_id""";
   mkTok TOKEN_CLOSE_PAREN ")";
   mkTok TOKEN_COMMA ",";
   mkTok TOKEN_UNIQUE "UNIQUE";
   mkTok TOKEN_OPEN_PAREN "(";
   mkTok TOKEN_IDENT """email""";
   mkTok TOKEN_CLOSE_PAREN ")";
   mkTok TOKEN_CLOSE_PAREN ")";
   mkTok TOKEN_SEMICOLON ";"].
Proof. vm_compute. reflexivity. Qed.

(* TestLexer_NextToken *)
Example next_Pg_1 : lex Pg "|" = [mkTok TOKEN_ILLEGAL "|"].
Proof. vm_compute. reflexivity. Qed.

(* TestLexer_NextToken *)
Example next_Pg_2 : lex Pg ":" = [mkTok TOKEN_ILLEGAL ":"].
Proof. vm_compute. reflexivity. Qed.

(* TestLexer_NextToken *)
Example next_Pg_3 : lex Pg "!" = [mkTok TOKEN_ILLEGAL "!"].
Proof. vm_compute. reflexivity. Qed.

(** ** pkg/ddl/cockroachdb/lexar_test.go *)

(* Test_lookupIdent: 63 cases *)
Example lookup_Crdb : looked_up Crdb
  [("EQUAL", TOKEN_EQUAL);
   ("GREATER", TOKEN_GREATER);
   ("LESS", TOKEN_LESS);
   ("CREATE", TOKEN_CREATE);
   ("ALTER", TOKEN_ALTER);
   ("DROP", TOKEN_DROP);
   ("RENAME", TOKEN_RENAME);
   ("CREATE", TOKEN_CREATE);
   ("ALTER", TOKEN_ALTER);
   ("DROP", TOKEN_DROP);
   ("RENAME", TOKEN_RENAME);
   ("TRUNCATE", TOKEN_TRUNCATE);
   ("DELETE", TOKEN_DELETE);
   ("UPDATE", TOKEN_UPDATE);
   ("TABLE", TOKEN_TABLE);
   ("INDEX", TOKEN_INDEX);
   ("VIEW", TOKEN_VIEW);
   ("IF", TOKEN_IF);
   ("EXISTS", TOKEN_EXISTS);
   ("ON", TOKEN_ON);
   ("TO", TOKEN_TO);
   ("BOOL", TOKEN_BOOL);
   ("BOOLEAN", TOKEN_BOOL);
   ("SMALLINT", TOKEN_INT2);
   ("INTEGER", TOKEN_INT4);
   ("INT", TOKEN_INT4);
   ("BIGINT", TOKEN_INT8);
   ("DECIMAL", TOKEN_DECIMAL);
   ("NUMERIC", TOKEN_NUMERIC);
   ("REAL", TOKEN_REAL);
   ("DOUBLE", TOKEN_DOUBLE);
   ("PRECISION", TOKEN_PRECISION);
   ("FLOAT4", TOKEN_FLOAT4);
   ("FLOAT8", TOKEN_FLOAT8);
   ("SMALLSERIAL", TOKEN_SMALLSERIAL);
   ("SERIAL", TOKEN_SERIAL);
   ("BIGSERIAL", TOKEN_BIGSERIAL);
   ("UUID", TOKEN_UUID);
   ("JSONB", TOKEN_JSONB);
   ("CHARACTER", TOKEN_CHARACTER);
   ("VARYING", TOKEN_VARYING);
   ("VARCHAR", TOKEN_VARCHAR);
   ("TEXT", TOKEN_STRING);
   ("TIMESTAMP", TOKEN_TIMESTAMP);
   ("TIMESTAMPTZ", TOKEN_TIMESTAMPTZ);
   ("WITH", TOKEN_WITH);
   ("TIME", TOKEN_TIME);
   ("ZONE", TOKEN_ZONE);
   ("DEFAULT", TOKEN_DEFAULT);
   ("NOT", TOKEN_NOT);
   ("NULL", TOKEN_NULL);
   ("ASC", TOKEN_ASC);
   ("DESC", TOKEN_DESC);
   ("CASCADE", TOKEN_CASCADE);
   ("CONSTRAINT", TOKEN_CONSTRAINT);
   ("PRIMARY", TOKEN_PRIMARY);
   ("KEY", TOKEN_KEY);
   ("FOREIGN", TOKEN_FOREIGN);
   ("REFERENCES", TOKEN_REFERENCES);
   ("UNIQUE", TOKEN_UNIQUE);
   ("CHECK", TOKEN_CHECK);
   ("NULLIF", TOKEN_NULLIF);
   ("users", TOKEN_IDENT)] = true.
Proof. vm_compute. reflexivity. Qed.

(* TestLex *)
Example lex_Crdb : lex Crdb "CREATE TABLE IF NOT EXISTS ""users"" (
    ""user_id""    UUID         NOT NULL,
    ""name""       VARCHAR(255) NOT NULL,
    ""email""      VARCHAR(255) NOT NULL,
    ""password""   VARCHAR(255) NOT NULL,
    ""created_at"" TIMESTAMPTZ   NOT NULL,
    ""updated_at"" TIMESTAMPTZ   NOT NULL,
    PRIMARY KEY (""user_id""),
    UNIQUE (""email"")
);" =
  [mkTok TOKEN_CREATE "CREATE";
   mkTok TOKEN_TABLE "TABLE";
   mkTok TOKEN_IF "IF";
   mkTok TOKEN_NOT "NOT";
   mkTok TOKEN_EXISTS "EXISTS";
   mkTok TOKEN_IDENT """users""";
   mkTok TOKEN_OPEN_PAREN "(";
   mkTok TOKEN_IDENT """user_id""";
   mkTok TOKEN_UUID "UUID";
   mkTok TOKEN_NOT "NOT";
   mkTok TOKEN_NULL "NULL";
   mkTok TOKEN_COMMA ",";
   mkTok TOKEN_IDENT """name""";
   mkTok TOKEN_VARCHAR "VARCHAR";
   mkTok TOKEN_OPEN_PAREN "(";
   mkTok TOKEN_IDENT "255";
   mkTok TOKEN_CLOSE_PAREN ")";
   mkTok TOKEN_NOT "NOT";
   mkTok TOKEN_NULL "NULL";
   mkTok TOKEN_COMMA ",";
   mkTok TOKEN_IDENT """email""";
   mkTok TOKEN_VARCHAR "VARCHAR";
   mkTok TOKEN_OPEN_PAREN "(";
   mkTok TOKEN_IDENT "255";
   mkTok TOKEN_CLOSE_PAREN ")";
   mkTok TOKEN_NOT "NOT";
   mkTok TOKEN_NULL "NULL";
   mkTok TOKEN_COMMA ",";
   mkTok TOKEN_IDENT """password""";
   mkTok TOKEN_VARCHAR "VARCHAR";
   mkTok TOKEN_OPEN_PAREN "(";
   mkTok TOKEN_IDENT "255";
   mkTok TOKEN_CLOSE_PAREN ")";
   mkTok TOKEN_NOT "NOT";
   mkTok TOKEN_NULL "NULL";
   mkTok TOKEN_COMMA ",";
   mkTok TOKEN_IDENT """created_at""";
   mkTok TOKEN_TIMESTAMPTZ "TIMESTAMPTZ";
   mkTok TOKEN_NOT "NOT";
   mkTok TOKEN_NULL "NULL";
   mkTok TOKEN_COMMA ",";
   mkTok TOKEN_IDENT """updated_at""";
   mkTok TOKEN_TIMESTAMPTZ "TIMESTAMPTZ";
   mkTok TOKEN_NOT "NOT";
   mkTok TOKEN_NULL "NULL";
   mkTok TOKEN_COMMA ",";
   mkTok TOKEN_PRIMARY "PRIMARY";
   mkTok TOKEN_KEY "KEY";
   mkTok TOKEN_OPEN_PAREN "(";
   mkTok TOKEN_IDENT """user_id""";
   mkTok TOKEN_CLOSE_PAREN ")";
   mkTok TOKEN_COMMA ",";
   mkTok TOKEN_UNIQUE "UNIQUE";
   mkTok TOKEN_OPEN_PAREN "(";
   mkTok TOKEN_IDENT """email""";
   mkTok TOKEN_CLOSE_PAREN ")";
   mkTok TOKEN_CLOSE_PAREN ")";
   mkTok TOKEN_SEMICOLON ";"].
Proof. vm_compute. reflexivity. Qed.

(* TestLexer_NextToken *)
Example next_Crdb_1 : lex Crdb "|" = [mkTok TOKEN_ILLEGAL "|"].
Proof. vm_compute. reflexivity. Qed.

(* TestLexer_NextToken *)
Example next_Crdb_2 : lex Crdb ":" = [mkTok TOKEN_ILLEGAL ":"].
Proof. vm_compute. reflexivity. Qed.

(* TestLexer_NextToken *)
Example next_Crdb_3 : lex Crdb "!" = [mkTok TOKEN_ILLEGAL "!"].
Proof. vm_compute. reflexivity. Qed.

(** ** pkg/ddl/mysql/lexar_test.go *)

(* Test_lookupIdent: 64 cases *)
Example lookup_My : looked_up My
  [("EQUAL", TOKEN_EQUAL);
   ("GREATER", TOKEN_GREATER);
   ("LESS", TOKEN_LESS);
   ("CREATE", TOKEN_CREATE);
   ("ALTER", TOKEN_ALTER);
   ("DROP", TOKEN_DROP);
   ("RENAME", TOKEN_RENAME);
   ("CREATE", TOKEN_CREATE);
   ("ALTER", TOKEN_ALTER);
   ("DROP", TOKEN_DROP);
   ("RENAME", TOKEN_RENAME);
   ("TRUNCATE", TOKEN_TRUNCATE);
   ("TABLE", TOKEN_TABLE);
   ("INDEX", TOKEN_INDEX);
   ("VIEW", TOKEN_VIEW);
   ("IF", TOKEN_IF);
   ("EXISTS", TOKEN_EXISTS);
   ("ON", TOKEN_ON);
   ("UPDATE", TOKEN_UPDATE);
   ("DELETE", TOKEN_DELETE);
   ("CASCADE", TOKEN_CASCADE);
   ("RESTRICT", TOKEN_RESTRICT);
   ("TO", TOKEN_TO);
   ("BOOLEAN", TOKEN_BOOLEAN);
   ("BIT", TOKEN_BIT);
   ("TINYINT", TOKEN_TINYINT);
   ("SMALLINT", TOKEN_SMALLINT);
   ("MEDIUMINT", TOKEN_MEDIUMINT);
   ("INTEGER", TOKEN_INTEGER);
   ("INT", TOKEN_INTEGER);
   ("BIGINT", TOKEN_BIGINT);
   ("DECIMAL", TOKEN_DECIMAL);
   ("NUMERIC", TOKEN_NUMERIC);
   ("REAL", TOKEN_REAL);
   ("DOUBLE", TOKEN_DOUBLE);
   ("PRECISION", TOKEN_PRECISION);
   ("SMALLSERIAL", TOKEN_SMALLSERIAL);
   ("SERIAL", TOKEN_SERIAL);
   ("BIGSERIAL", TOKEN_BIGSERIAL);
   ("JSON", TOKEN_JSON);
   ("CHARACTER", TOKEN_CHARACTER);
   ("VARYING", TOKEN_VARYING);
   ("VARCHAR", TOKEN_VARCHAR);
   ("TEXT", TOKEN_TEXT);
   ("MEDIUMTEXT", TOKEN_MEDIUMTEXT);
   ("LONGTEXT", TOKEN_LONGTEXT);
   ("TIMESTAMP", TOKEN_TIMESTAMP);
   ("DATETIME", TOKEN_DATETIME);
   ("DATE", TOKEN_DATE);
   ("TIME", TOKEN_TIME);
   ("DEFAULT", TOKEN_DEFAULT);
   ("NOT", TOKEN_NOT);
   ("NULL", TOKEN_NULL);
   ("ASC", TOKEN_ASC);
   ("DESC", TOKEN_DESC);
   ("CONSTRAINT", TOKEN_CONSTRAINT);
   ("PRIMARY", TOKEN_PRIMARY);
   ("KEY", TOKEN_KEY);
   ("FOREIGN", TOKEN_FOREIGN);
   ("REFERENCES", TOKEN_REFERENCES);
   ("UNIQUE", TOKEN_UNIQUE);
   ("CHECK", TOKEN_CHECK);
   ("NULLIF", TOKEN_NULLIF);
   ("users", TOKEN_IDENT)] = true.
Proof. vm_compute. reflexivity. Qed.

(* TestLex *)
Example lex_My : lex My "CREATE TABLE IF NOT EXISTS ""users"" (
    ""user_id""    VARCHAR(36)  NOT NULL,
    ""name""       VARCHAR(255) NOT NULL,
    ""email""      VARCHAR(255) NOT NULL,
    ""password""   VARCHAR(255) NOT NULL,
    ""created_at"" DATETIME     NOT NULL,
    ""updated_at"" DATETIME     NOT NULL,
    PRIMARY KEY (""user_id""),
    UNIQUE (""email"")
);" =
  [mkTok TOKEN_CREATE "CREATE";
   mkTok TOKEN_TABLE "TABLE";
   mkTok TOKEN_IF "IF";
   mkTok TOKEN_NOT "NOT";
   mkTok TOKEN_EXISTS "EXISTS";
   mkTok TOKEN_IDENT """users""";
   mkTok TOKEN_OPEN_PAREN "(";
   mkTok TOKEN_IDENT """user_id""";
   mkTok TOKEN_VARCHAR "VARCHAR";
   mkTok TOKEN_OPEN_PAREN "(";
   mkTok TOKEN_IDENT "36";
   mkTok TOKEN_CLOSE_PAREN ")";
   mkTok TOKEN_NOT "NOT";
   mkTok TOKEN_NULL "NULL";
   mkTok TOKEN_COMMA ",";
   mkTok TOKEN_IDENT """name""";
   mkTok TOKEN_VARCHAR "VARCHAR";
   mkTok TOKEN_OPEN_PAREN "(";
   mkTok TOKEN_IDENT "255";
   mkTok TOKEN_CLOSE_PAREN ")";
   mkTok TOKEN_NOT "NOT";
   mkTok TOKEN_NULL "NULL";
   mkTok TOKEN_COMMA ",";
   mkTok TOKEN_IDENT """email""";
   mkTok TOKEN_VARCHAR "VARCHAR";
   mkTok TOKEN_OPEN_PAREN "(";
   mkTok TOKEN_IDENT "255";
   mkTok TOKEN_CLOSE_PAREN ")";
   mkTok TOKEN_NOT "NOT";
   mkTok TOKEN_NULL "NULL";
   mkTok TOKEN_COMMA ",";
   mkTok TOKEN_IDENT """password""";
   mkTok TOKEN_VARCHAR "VARCHAR";
   mkTok TOKEN_OPEN_PAREN "(";
   mkTok TOKEN_IDENT "255";
   mkTok TOKEN_CLOSE_PAREN ")";
   mkTok TOKEN_NOT "NOT";
   mkTok TOKEN_NULL "NULL";
   mkTok TOKEN_COMMA ",";
   mkTok TOKEN_IDENT """created_at""";
   mkTok TOKEN_DATETIME "DATETIME";
   mkTok TOKEN_NOT "NOT";
   mkTok TOKEN_NULL "NULL";
   mkTok TOKEN_COMMA ",";
   mkTok TOKEN_IDENT """updated_at""";
   mkTok TOKEN_DATETIME "DATETIME";
   mkTok TOKEN_NOT "NOT";
   mkTok TOKEN_NULL "NULL";
   mkTok TOKEN_COMMA ",";
   mkTok TOKEN_PRIMARY "PRIMARY";
   mkTok TOKEN_KEY "KEY";
   mkTok TOKEN_OPEN_PAREN "(";
   mkTok TOKEN_IDENT """user_id""";
   mkTok TOKEN_CLOSE_PAREN ")";
   mkTok TOKEN_COMMA ",";
   mkTok TOKEN_UNIQUE "UNIQUE";
   mkTok TOKEN_OPEN_PAREN "(";
   mkTok TOKEN_IDENT """email""";
   mkTok TOKEN_CLOSE_PAREN ")";
   mkTok TOKEN_CLOSE_PAREN ")";
   mkTok TOKEN_SEMICOLON ";"].
Proof. vm_compute. reflexivity. Qed.

(* TestLexer_NextToken *)
Example next_My_1 : lex My "-" = [mkTok TOKEN_MINUS "-"].
Proof. vm_compute. reflexivity. Qed.

(* TestLexer_NextToken *)
Example next_My_2 : lex My "|" = [mkTok TOKEN_ILLEGAL "|"].
Proof. vm_compute. reflexivity. Qed.

(* TestLexer_NextToken *)
Example next_My_3 : lex My ":" = [mkTok TOKEN_ILLEGAL ":"].
Proof. vm_compute. reflexivity. Qed.

(* TestLexer_NextToken *)
Example next_My_4 : lex My "!" = [mkTok TOKEN_ILLEGAL "!"].
Proof. vm_compute. reflexivity. Qed.

(** ** pkg/ddl/spanner/lexar_test.go *)

(* Test_lookupIdent: 47 cases *)
Example lookup_Sp : looked_up Sp
  [("EQUAL", TOKEN_EQUAL);
   ("GREATER", TOKEN_GREATER);
   ("LESS", TOKEN_LESS);
   ("CREATE", TOKEN_CREATE);
   ("ALTER", TOKEN_ALTER);
   ("DROP", TOKEN_DROP);
   ("RENAME", TOKEN_RENAME);
   ("CREATE", TOKEN_CREATE);
   ("ALTER", TOKEN_ALTER);
   ("DROP", TOKEN_DROP);
   ("RENAME", TOKEN_RENAME);
   ("TRUNCATE", TOKEN_TRUNCATE);
   ("DELETE", TOKEN_DELETE);
   ("UPDATE", TOKEN_UPDATE);
   ("TABLE", TOKEN_TABLE);
   ("INDEX", TOKEN_INDEX);
   ("VIEW", TOKEN_VIEW);
   ("IF", TOKEN_IF);
   ("EXISTS", TOKEN_EXISTS);
   ("ON", TOKEN_ON);
   ("TO", TOKEN_TO);
   ("WITH", TOKEN_WITH);
   ("BOOL", TOKEN_BOOL);
   ("NUMERIC", TOKEN_NUMERIC);
   ("FLOAT64", TOKEN_FLOAT64);
   ("JSON", TOKEN_JSON);
   ("STRING", TOKEN_STRING);
   ("BYTES", TOKEN_BYTES);
   ("TIMESTAMP", TOKEN_TIMESTAMP);
   ("DATE", TOKEN_DATE);
   ("ARRAY", TOKEN_ARRAY);
   ("STRUCT", TOKEN_STRUCT);
   ("DEFAULT", TOKEN_DEFAULT);
   ("NOT", TOKEN_NOT);
   ("NULL", TOKEN_NULL);
   ("ASC", TOKEN_ASC);
   ("DESC", TOKEN_DESC);
   ("CASCADE", TOKEN_CASCADE);
   ("CONSTRAINT", TOKEN_CONSTRAINT);
   ("PRIMARY", TOKEN_PRIMARY);
   ("KEY", TOKEN_KEY);
   ("FOREIGN", TOKEN_FOREIGN);
   ("REFERENCES", TOKEN_REFERENCES);
   ("UNIQUE", TOKEN_UNIQUE);
   ("CHECK", TOKEN_CHECK);
   ("NULLIF", TOKEN_NULLIF);
   ("users", TOKEN_IDENT)] = true.
Proof. vm_compute. reflexivity. Qed.

(* TestLex *)
Example lex_Sp : lex Sp "CREATE TABLE IF NOT EXISTS ""users"" (
    ""user_id""    STRING(36)    NOT NULL,
    ""name""       STRING(255)   NOT NULL,
    ""email""      STRING(255)   NOT NULL,
    ""password""   STRING(255)   NOT NULL,
    ""created_at"" TIMESTAMP   NOT NULL,
    ""updated_at"" TIMESTAMP   NOT NULL,
    PRIMARY KEY (""user_id""),
    UNIQUE (""email"")
);" =
  [mkTok TOKEN_CREATE "CREATE";
   mkTok TOKEN_TABLE "TABLE";
   mkTok TOKEN_IF "IF";
   mkTok TOKEN_NOT "NOT";
   mkTok TOKEN_EXISTS "EXISTS";
   mkTok TOKEN_IDENT """users""";
   mkTok TOKEN_OPEN_PAREN "(";
   mkTok TOKEN_IDENT """user_id""";
   mkTok TOKEN_STRING "STRING";
   mkTok TOKEN_OPEN_PAREN "(";
   mkTok TOKEN_IDENT "36";
   mkTok TOKEN_CLOSE_PAREN ")";
   mkTok TOKEN_NOT "NOT";
   mkTok TOKEN_NULL "NULL";
   mkTok TOKEN_COMMA ",";
   mkTok TOKEN_IDENT """name""";
   mkTok TOKEN_STRING "STRING";
   mkTok TOKEN_OPEN_PAREN "(";
   mkTok TOKEN_IDENT "255";
   mkTok TOKEN_CLOSE_PAREN ")";
   mkTok TOKEN_NOT "NOT";
   mkTok TOKEN_NULL "NULL";
   mkTok TOKEN_COMMA ",";
   mkTok TOKEN_IDENT """email""";
   mkTok TOKEN_STRING "STRING";
   mkTok TOKEN_OPEN_PAREN "(";
   mkTok TOKEN_IDENT "255";
   mkTok TOKEN_CLOSE_PAREN ")";
   mkTok TOKEN_NOT "NOT";
   mkTok TOKEN_NULL "NULL";
   mkTok TOKEN_COMMA ",";
   mkTok TOKEN_IDENT """password""";
   mkTok TOKEN_STRING "STRING";
   mkTok TOKEN_OPEN_PAREN "(";
   mkTok TOKEN_IDENT "255";
   mkTok TOKEN_CLOSE_PAREN ")";
   mkTok TOKEN_NOT "NOT";
   mkTok TOKEN_NULL "NULL";
   mkTok TOKEN_COMMA ",";
   mkTok TOKEN_IDENT """created_at""";
   mkTok TOKEN_TIMESTAMP "TIMESTAMP";
   mkTok TOKEN_NOT "NOT";
   mkTok TOKEN_NULL "NULL";
   mkTok TOKEN_COMMA ",";
   mkTok TOKEN_IDENT """updated_at""";
   mkTok TOKEN_TIMESTAMP "TIMESTAMP";
   mkTok TOKEN_NOT "NOT";
   mkTok TOKEN_NULL "NULL";
   mkTok TOKEN_COMMA ",";
   mkTok TOKEN_PRIMARY "PRIMARY";
   mkTok TOKEN_KEY "KEY";
   mkTok TOKEN_OPEN_PAREN "(";
   mkTok TOKEN_IDENT """user_id""";
   mkTok TOKEN_CLOSE_PAREN ")";
   mkTok TOKEN_COMMA ",";
   mkTok TOKEN_UNIQUE "UNIQUE";
   mkTok TOKEN_OPEN_PAREN "(";
   mkTok TOKEN_IDENT """email""";
   mkTok TOKEN_CLOSE_PAREN ")";
   mkTok TOKEN_CLOSE_PAREN ")";
   mkTok TOKEN_SEMICOLON ";"].
Proof. vm_compute. reflexivity. Qed.

(* TestLexer_NextToken *)
Example next_Sp_1 : lex Sp "|" = [mkTok TOKEN_ILLEGAL "|"].
Proof. vm_compute. reflexivity. Qed.

(* TestLexer_NextToken *)
Example next_Sp_2 : lex Sp ":" = [mkTok TOKEN_ILLEGAL ":"].
Proof. vm_compute. reflexivity. Qed.

(* TestLexer_NextToken *)
Example next_Sp_3 : lex Sp "!" = [mkTok TOKEN_ILLEGAL "!"].
Proof. vm_compute. reflexivity. Qed.
