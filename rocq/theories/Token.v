(** Token types and keyword tables.

    Go: [type TokenType string] with constants (pkg/ddl/*/lexar.go:27-130).  A
    token type is therefore its string value.  The four packages give equal
    values to equally named constants, so one set of constants is enough.
    The constants and the keyword tables below are transcribed mechanically.
    pg/crdb/my/sp:n is line n of pkg/ddl/{postgres,cockroachdb,mysql,spanner}/lexar.go. *)
From Verif Require Import GoStr.

(** The four supported dialects (pkg/ddl/*/ddl.go:9-11). *)
Inductive dialect := Pg | Crdb | My | Sp.

(** TokenType: postgres/lexar.go:27 (the same line in the other packages) *)
Definition tokentype := string.

Definition TOKEN_ILLEGAL : tokentype := "ILLEGAL". (** pg:36, crdb:36, my:36, sp:36 *)
Definition TOKEN_EOF : tokentype := "EOF". (** pg:37, crdb:37, my:37, sp:37 *)
Definition TOKEN_OPEN_PAREN : tokentype := "OPEN_PAREN". (** pg:40, crdb:40, my:40, sp:40 *)
Definition TOKEN_CLOSE_PAREN : tokentype := "CLOSE_PAREN". (** pg:41, crdb:41, my:41, sp:41 *)
Definition TOKEN_COMMA : tokentype := "COMMA". (** pg:42, crdb:42, my:42, sp:42 *)
Definition TOKEN_SEMICOLON : tokentype := "SEMICOLON". (** pg:43, crdb:43, my:43, sp:43 *)
Definition TOKEN_EQUAL : tokentype := "EQUAL". (** pg:44, crdb:44, my:44, sp:44 *)
Definition TOKEN_GREATER : tokentype := "GREATER". (** pg:45, crdb:45, my:45, sp:45 *)
Definition TOKEN_LESS : tokentype := "LESS". (** pg:46, crdb:46, my:46, sp:46 *)
Definition TOKEN_PLUS : tokentype := "PLUS". (** pg:47, crdb:47, my:47, sp:47 *)
Definition TOKEN_MINUS : tokentype := "MINUS". (** pg:48, crdb:48, my:48, sp:48 *)
Definition TOKEN_ASTERISK : tokentype := "ASTERISK". (** pg:49, crdb:49, my:49, sp:49 *)
Definition TOKEN_SLASH : tokentype := "SLASH". (** pg:50, crdb:50, my:50, sp:50 *)
Definition TOKEN_STRING_CONCAT : tokentype := "STRING_CONCAT". (** pg:51, crdb:51, my:51, sp:51 *)
Definition TOKEN_TYPECAST : tokentype := "TYPECAST". (** pg:52, crdb:52, my:52, sp:52 *)
Definition TOKEN_CREATE : tokentype := "CREATE". (** pg:55, crdb:56, my:56, sp:56 *)
Definition TOKEN_ALTER : tokentype := "ALTER". (** pg:56, crdb:57, my:57, sp:57 *)
Definition TOKEN_DROP : tokentype := "DROP". (** pg:57, crdb:58, my:58, sp:58 *)
Definition TOKEN_RENAME : tokentype := "RENAME". (** pg:58, crdb:59, my:59, sp:59 *)
Definition TOKEN_TRUNCATE : tokentype := "TRUNCATE". (** pg:59, crdb:60, my:60, sp:60 *)
Definition TOKEN_DELETE : tokentype := "DELETE". (** pg:60, crdb:61, my:73, sp:61 *)
Definition TOKEN_UPDATE : tokentype := "UPDATE". (** pg:61, crdb:62, my:72, sp:62 *)
Definition TOKEN_TABLE : tokentype := "TABLE". (** pg:64, crdb:65, my:63, sp:65 *)
Definition TOKEN_INDEX : tokentype := "INDEX". (** pg:65, crdb:66, my:64, sp:66 *)
Definition TOKEN_VIEW : tokentype := "VIEW". (** pg:66, crdb:67, my:65, sp:67 *)
Definition TOKEN_IF : tokentype := "IF". (** pg:69, crdb:70, my:68, sp:70 *)
Definition TOKEN_EXISTS : tokentype := "EXISTS". (** pg:70, crdb:71, my:69, sp:71 *)
Definition TOKEN_USING : tokentype := "USING". (** pg:71, crdb:72, my:70, sp:72 *)
Definition TOKEN_ON : tokentype := "ON". (** pg:72, crdb:73, my:71, sp:73 *)
Definition TOKEN_TO : tokentype := "TO". (** pg:73, crdb:74, my:78, sp:74 *)
Definition TOKEN_BOOLEAN : tokentype := "BOOLEAN". (** pg:76, my:82 *)
Definition TOKEN_SMALLINT : tokentype := "SMALLINT". (** pg:77, my:85 *)
Definition TOKEN_INTEGER : tokentype := "INTEGER". (** pg:78, my:87 *)
Definition TOKEN_BIGINT : tokentype := "BIGINT". (** pg:79, my:88 *)
Definition TOKEN_DECIMAL : tokentype := "DECIMAL". (** pg:80, crdb:81, my:89 *)
Definition TOKEN_NUMERIC : tokentype := "NUMERIC". (** pg:81, crdb:82, my:90, sp:81 *)
Definition TOKEN_REAL : tokentype := "REAL". (** pg:82, crdb:83, my:91 *)
Definition TOKEN_DOUBLE : tokentype := "DOUBLE". (** pg:83, crdb:84, my:92 *)
Definition TOKEN_PRECISION : tokentype := "PRECISION". (** pg:84, crdb:85, my:93 *)
Definition TOKEN_DOUBLE_PRECISION : tokentype := "DOUBLE PRECISION". (** pg:85, crdb:86, my:94 *)
Definition TOKEN_SMALLSERIAL : tokentype := "SMALLSERIAL". (** pg:86, crdb:89, my:95 *)
Definition TOKEN_SERIAL : tokentype := "SERIAL". (** pg:87, crdb:90, my:96 *)
Definition TOKEN_BIGSERIAL : tokentype := "BIGSERIAL". (** pg:88, crdb:91, my:97 *)
Definition TOKEN_UUID : tokentype := "UUID". (** pg:89, crdb:92 *)
Definition TOKEN_JSONB : tokentype := "JSONB". (** pg:90, crdb:93 *)
Definition TOKEN_CHARACTER_VARYING : tokentype := "CHARACTER VARYING". (** pg:91, crdb:94, my:100 *)
Definition TOKEN_CHARACTER : tokentype := "CHARACTER". (** pg:92, crdb:95, my:101 *)
Definition TOKEN_VARYING : tokentype := "VARYING". (** pg:93, crdb:96, my:102 *)
Definition TOKEN_TEXT : tokentype := "TEXT". (** pg:94, my:104 *)
Definition TOKEN_TIMESTAMPTZ : tokentype := "TIMESTAMPTZ". (** pg:95, crdb:99 *)
Definition TOKEN_TIMESTAMP_WITH_TIME_ZONE : tokentype := "TIMESTAMP WITH TIME ZONE". (** pg:96 *)
Definition TOKEN_TIMESTAMP : tokentype := "TIMESTAMP". (** pg:97, crdb:100, my:108, sp:85 *)
Definition TOKEN_WITH : tokentype := "WITH". (** pg:98, crdb:101, sp:75 *)
Definition TOKEN_TIME : tokentype := "TIME". (** pg:99, crdb:102, my:110 *)
Definition TOKEN_ZONE : tokentype := "ZONE". (** pg:100, crdb:103 *)
Definition TOKEN_DEFAULT : tokentype := "DEFAULT". (** pg:103, crdb:106, my:114, sp:91 *)
Definition TOKEN_NOT : tokentype := "NOT". (** pg:104, crdb:107, my:115, sp:92 *)
Definition TOKEN_ASC : tokentype := "ASC". (** pg:105, crdb:110, my:116, sp:93 *)
Definition TOKEN_DESC : tokentype := "DESC". (** pg:106, crdb:111, my:117, sp:94 *)
Definition TOKEN_CASCADE : tokentype := "CASCADE". (** pg:107, crdb:112, my:74, sp:99 *)
Definition TOKEN_NO : tokentype := "NO". (** pg:108, crdb:113, my:76, sp:100 *)
Definition TOKEN_ACTION : tokentype := "ACTION". (** pg:109, crdb:114, my:77, sp:101 *)
Definition TOKEN_CONSTRAINT : tokentype := "CONSTRAINT". (** pg:112, crdb:119, my:121, sp:104 *)
Definition TOKEN_PRIMARY : tokentype := "PRIMARY". (** pg:113, crdb:120, my:122, sp:105 *)
Definition TOKEN_KEY : tokentype := "KEY". (** pg:114, crdb:121, my:123, sp:106 *)
Definition TOKEN_FOREIGN : tokentype := "FOREIGN". (** pg:115, crdb:122, my:124, sp:107 *)
Definition TOKEN_REFERENCES : tokentype := "REFERENCES". (** pg:116, crdb:123, my:125, sp:108 *)
Definition TOKEN_UNIQUE : tokentype := "UNIQUE". (** pg:117, crdb:124, my:126, sp:109 *)
Definition TOKEN_CHECK : tokentype := "CHECK". (** pg:118, crdb:125, my:127, sp:110 *)
Definition TOKEN_NULLIF : tokentype := "NULLIF". (** pg:121, crdb:128, my:137, sp:113 *)
Definition TOKEN_NULL : tokentype := "NULL". (** pg:124, crdb:131, my:140, sp:116 *)
Definition TOKEN_TRUE : tokentype := "TRUE". (** pg:125, crdb:132, my:141, sp:117 *)
Definition TOKEN_FALSE : tokentype := "FALSE". (** pg:126, crdb:133, my:142, sp:118 *)
Definition TOKEN_IDENT : tokentype := "IDENT". (** pg:129, crdb:136, my:145, sp:129 *)
Definition TOKEN_TYPE_ANNOTATION : tokentype := "TYPE_ANNOTATION". (** crdb:53, my:53, sp:53 *)
Definition TOKEN_BOOL : tokentype := "BOOL". (** crdb:77, sp:78 *)
Definition TOKEN_INT2 : tokentype := "INT2". (** crdb:78 *)
Definition TOKEN_INT4 : tokentype := "INT4". (** crdb:79 *)
Definition TOKEN_INT8 : tokentype := "INT8". (** crdb:80 *)
Definition TOKEN_FLOAT4 : tokentype := "FLOAT4". (** crdb:87 *)
Definition TOKEN_FLOAT8 : tokentype := "FLOAT8". (** crdb:88 *)
Definition TOKEN_VARCHAR : tokentype := "VARCHAR". (** crdb:97, my:103 *)
Definition TOKEN_STRING : tokentype := "STRING". (** crdb:98, sp:83 *)
Definition TOKEN_VISIBLE : tokentype := "VISIBLE". (** crdb:108 *)
Definition TOKEN_AS : tokentype := "AS". (** crdb:109 *)
Definition TOKEN_STORED : tokentype := "STORED". (** crdb:115 *)
Definition TOKEN_VIRTUAL : tokentype := "VIRTUAL". (** crdb:116 *)
Definition TOKEN_RESTRICT : tokentype := "RESTRICT". (** my:75 *)
Definition TOKEN_SET : tokentype := "SET". (** my:79 *)
Definition TOKEN_BIT : tokentype := "BIT". (** my:83 *)
Definition TOKEN_TINYINT : tokentype := "TINYINT". (** my:84 *)
Definition TOKEN_MEDIUMINT : tokentype := "MEDIUMINT". (** my:86 *)
Definition TOKEN_JSON : tokentype := "JSON". (** my:98, sp:82 *)
Definition TOKEN_CHAR : tokentype := "CHAR". (** my:99 *)
Definition TOKEN_MEDIUMTEXT : tokentype := "MEDIUMTEXT". (** my:105 *)
Definition TOKEN_LONGTEXT : tokentype := "LONGTEXT". (** my:106 *)
Definition TOKEN_DATETIME : tokentype := "DATETIME". (** my:107 *)
Definition TOKEN_DATE : tokentype := "DATE". (** my:109, sp:86 *)
Definition TOKEN_ENUM : tokentype := "ENUM". (** my:111 *)
Definition TOKEN_COMMENT : tokentype := "COMMENT". (** my:118 *)
Definition TOKEN_ENGINE : tokentype := "ENGINE". (** my:130 *)
Definition TOKEN_CHARSET : tokentype := "CHARSET". (** my:131 *)
Definition TOKEN_COLLATE : tokentype := "COLLATE". (** my:132 *)
Definition TOKEN_AUTO_INCREMENT : tokentype := "AUTO_INCREMENT". (** my:135 *)
Definition TOKEN_CURRENT_TIMESTAMP : tokentype := "CURRENT_TIMESTAMP". (** my:136 *)
Definition TOKEN_INT64 : tokentype := "INT64". (** sp:79 *)
Definition TOKEN_FLOAT64 : tokentype := "FLOAT64". (** sp:80 *)
Definition TOKEN_BYTES : tokentype := "BYTES". (** sp:84 *)
Definition TOKEN_ARRAY : tokentype := "ARRAY". (** sp:87 *)
Definition TOKEN_STRUCT : tokentype := "STRUCT". (** sp:88 *)
Definition TOKEN_OPTIONS : tokentype := "OPTIONS". (** sp:95 *)
Definition TOKEN_INTERLEAVE : tokentype := "INTERLEAVE". (** sp:96 *)
Definition TOKEN_IN : tokentype := "IN". (** sp:97 *)
Definition TOKEN_PARENT : tokentype := "PARENT". (** sp:98 *)
Definition TOKEN_ROW : tokentype := "ROW". (** sp:121 *)
Definition TOKEN_DELETION : tokentype := "DELETION". (** sp:122 *)
Definition TOKEN_POLICY : tokentype := "POLICY". (** sp:123 *)
Definition TOKEN_OLDER_THAN : tokentype := "OLDER_THAN". (** sp:124 *)
Definition TOKEN_INTERVAL : tokentype := "INTERVAL". (** sp:125 *)
Definition TOKEN_DAY : tokentype := "DAY". (** sp:126 *)

(** Keyword table of pkg/ddl/postgres/lexar.go:133-258 (lookupIdent). *)
Definition keywords_Pg : list (string * tokentype) :=
  [ ("EQUAL", TOKEN_EQUAL);
    ("GREATER", TOKEN_GREATER);
    ("LESS", TOKEN_LESS);
    ("CREATE", TOKEN_CREATE);
    ("ALTER", TOKEN_ALTER);
    ("DROP", TOKEN_DROP);
    ("RENAME", TOKEN_RENAME);
    ("TRUNCATE", TOKEN_TRUNCATE);
    ("DELETE", TOKEN_DELETE);
    ("UPDATE", TOKEN_UPDATE);
    ("TABLE", TOKEN_TABLE);
    ("INDEX", TOKEN_INDEX);
    ("VIEW", TOKEN_VIEW);
    ("IF", TOKEN_IF);
    ("EXISTS", TOKEN_EXISTS);
    ("USING", TOKEN_USING);
    ("ON", TOKEN_ON);
    ("TO", TOKEN_TO);
    ("BOOLEAN", TOKEN_BOOLEAN);
    ("SMALLINT", TOKEN_SMALLINT);
    ("INTEGER", TOKEN_INTEGER);
    ("INT", TOKEN_INTEGER);
    ("BIGINT", TOKEN_BIGINT);
    ("DECIMAL", TOKEN_DECIMAL);
    ("NUMERIC", TOKEN_NUMERIC);
    ("REAL", TOKEN_REAL);
    ("DOUBLE", TOKEN_DOUBLE);
    ("PRECISION", TOKEN_PRECISION);
    ("SMALLSERIAL", TOKEN_SMALLSERIAL);
    ("SERIAL", TOKEN_SERIAL);
    ("BIGSERIAL", TOKEN_BIGSERIAL);
    ("UUID", TOKEN_UUID);
    ("JSONB", TOKEN_JSONB);
    ("CHARACTER", TOKEN_CHARACTER);
    ("VARYING", TOKEN_VARYING);
    ("VARCHAR", TOKEN_VARYING);
    ("TEXT", TOKEN_TEXT);
    ("TIMESTAMP", TOKEN_TIMESTAMP);
    ("TIMESTAMPTZ", TOKEN_TIMESTAMPTZ);
    ("WITH", TOKEN_WITH);
    ("TIME", TOKEN_TIME);
    ("ZONE", TOKEN_ZONE);
    ("DEFAULT", TOKEN_DEFAULT);
    ("NOT", TOKEN_NOT);
    ("ASC", TOKEN_ASC);
    ("DESC", TOKEN_DESC);
    ("CASCADE", TOKEN_CASCADE);
    ("NO", TOKEN_NO);
    ("ACTION", TOKEN_ACTION);
    ("CONSTRAINT", TOKEN_CONSTRAINT);
    ("PRIMARY", TOKEN_PRIMARY);
    ("KEY", TOKEN_KEY);
    ("FOREIGN", TOKEN_FOREIGN);
    ("REFERENCES", TOKEN_REFERENCES);
    ("UNIQUE", TOKEN_UNIQUE);
    ("CHECK", TOKEN_CHECK);
    ("NULLIF", TOKEN_NULLIF);
    ("NULL", TOKEN_NULL);
    ("TRUE", TOKEN_TRUE);
    ("FALSE", TOKEN_FALSE) ].

(** Keyword table of pkg/ddl/cockroachdb/lexar.go:140-279 (lookupIdent). *)
Definition keywords_Crdb : list (string * tokentype) :=
  [ ("EQUAL", TOKEN_EQUAL);
    ("GREATER", TOKEN_GREATER);
    ("LESS", TOKEN_LESS);
    ("CREATE", TOKEN_CREATE);
    ("ALTER", TOKEN_ALTER);
    ("DROP", TOKEN_DROP);
    ("RENAME", TOKEN_RENAME);
    ("TRUNCATE", TOKEN_TRUNCATE);
    ("DELETE", TOKEN_DELETE);
    ("UPDATE", TOKEN_UPDATE);
    ("TABLE", TOKEN_TABLE);
    ("INDEX", TOKEN_INDEX);
    ("VIEW", TOKEN_VIEW);
    ("IF", TOKEN_IF);
    ("EXISTS", TOKEN_EXISTS);
    ("USING", TOKEN_USING);
    ("ON", TOKEN_ON);
    ("TO", TOKEN_TO);
    ("BOOLEAN", TOKEN_BOOL);
    ("BOOL", TOKEN_BOOL);
    ("INT2", TOKEN_INT2);
    ("SMALLINT", TOKEN_INT2);
    ("INT4", TOKEN_INT4);
    ("INTEGER", TOKEN_INT4);
    ("INT", TOKEN_INT4);
    ("INT8", TOKEN_INT8);
    ("BIGINT", TOKEN_INT8);
    ("DECIMAL", TOKEN_DECIMAL);
    ("NUMERIC", TOKEN_NUMERIC);
    ("REAL", TOKEN_REAL);
    ("DOUBLE", TOKEN_DOUBLE);
    ("PRECISION", TOKEN_PRECISION);
    ("FLOAT4", TOKEN_FLOAT4);
    ("FLOAT8", TOKEN_FLOAT8);
    ("SMALLSERIAL", TOKEN_SMALLSERIAL);
    ("SERIAL", TOKEN_SERIAL);
    ("BIGSERIAL", TOKEN_BIGSERIAL);
    ("UUID", TOKEN_UUID);
    ("JSONB", TOKEN_JSONB);
    ("CHARACTER", TOKEN_CHARACTER);
    ("VARYING", TOKEN_VARYING);
    ("VARCHAR", TOKEN_VARCHAR);
    ("TEXT", TOKEN_STRING);
    ("STRING", TOKEN_STRING);
    ("TIMESTAMP", TOKEN_TIMESTAMP);
    ("TIMESTAMPTZ", TOKEN_TIMESTAMPTZ);
    ("WITH", TOKEN_WITH);
    ("TIME", TOKEN_TIME);
    ("ZONE", TOKEN_ZONE);
    ("DEFAULT", TOKEN_DEFAULT);
    ("NOT", TOKEN_NOT);
    ("VISIBLE", TOKEN_VISIBLE);
    ("AS", TOKEN_AS);
    ("ASC", TOKEN_ASC);
    ("DESC", TOKEN_DESC);
    ("CASCADE", TOKEN_CASCADE);
    ("NO", TOKEN_NO);
    ("ACTION", TOKEN_ACTION);
    ("STORED", TOKEN_STORED);
    ("VIRTUAL", TOKEN_VIRTUAL);
    ("CONSTRAINT", TOKEN_CONSTRAINT);
    ("PRIMARY", TOKEN_PRIMARY);
    ("KEY", TOKEN_KEY);
    ("FOREIGN", TOKEN_FOREIGN);
    ("REFERENCES", TOKEN_REFERENCES);
    ("UNIQUE", TOKEN_UNIQUE);
    ("CHECK", TOKEN_CHECK);
    ("NULLIF", TOKEN_NULLIF);
    ("NULL", TOKEN_NULL);
    ("TRUE", TOKEN_TRUE);
    ("FALSE", TOKEN_FALSE) ].

(** Keyword table of pkg/ddl/mysql/lexar.go:149-302 (lookupIdent). *)
Definition keywords_My : list (string * tokentype) :=
  [ ("EQUAL", TOKEN_EQUAL);
    ("GREATER", TOKEN_GREATER);
    ("LESS", TOKEN_LESS);
    ("CREATE", TOKEN_CREATE);
    ("ALTER", TOKEN_ALTER);
    ("DROP", TOKEN_DROP);
    ("RENAME", TOKEN_RENAME);
    ("TRUNCATE", TOKEN_TRUNCATE);
    ("TABLE", TOKEN_TABLE);
    ("INDEX", TOKEN_INDEX);
    ("VIEW", TOKEN_VIEW);
    ("IF", TOKEN_IF);
    ("EXISTS", TOKEN_EXISTS);
    ("USING", TOKEN_USING);
    ("ON", TOKEN_ON);
    ("UPDATE", TOKEN_UPDATE);
    ("DELETE", TOKEN_DELETE);
    ("CASCADE", TOKEN_CASCADE);
    ("RESTRICT", TOKEN_RESTRICT);
    ("NO", TOKEN_NO);
    ("ACTION", TOKEN_ACTION);
    ("TO", TOKEN_TO);
    ("SET", TOKEN_SET);
    ("BOOLEAN", TOKEN_BOOLEAN);
    ("BIT", TOKEN_BIT);
    ("TINYINT", TOKEN_TINYINT);
    ("SMALLINT", TOKEN_SMALLINT);
    ("MEDIUMINT", TOKEN_MEDIUMINT);
    ("INTEGER", TOKEN_INTEGER);
    ("INT", TOKEN_INTEGER);
    ("BIGINT", TOKEN_BIGINT);
    ("DECIMAL", TOKEN_DECIMAL);
    ("NUMERIC", TOKEN_NUMERIC);
    ("REAL", TOKEN_REAL);
    ("DOUBLE", TOKEN_DOUBLE);
    ("PRECISION", TOKEN_PRECISION);
    ("SMALLSERIAL", TOKEN_SMALLSERIAL);
    ("SERIAL", TOKEN_SERIAL);
    ("BIGSERIAL", TOKEN_BIGSERIAL);
    ("JSON", TOKEN_JSON);
    ("CHAR", TOKEN_CHAR);
    ("CHARACTER", TOKEN_CHARACTER);
    ("VARYING", TOKEN_VARYING);
    ("VARCHAR", TOKEN_VARCHAR);
    ("TEXT", TOKEN_TEXT);
    ("MEDIUMTEXT", TOKEN_MEDIUMTEXT);
    ("LONGTEXT", TOKEN_LONGTEXT);
    ("TIMESTAMP", TOKEN_TIMESTAMP);
    ("DATETIME", TOKEN_DATETIME);
    ("DATE", TOKEN_DATE);
    ("TIME", TOKEN_TIME);
    ("ENUM", TOKEN_ENUM);
    ("DEFAULT", TOKEN_DEFAULT);
    ("NOT", TOKEN_NOT);
    ("ASC", TOKEN_ASC);
    ("DESC", TOKEN_DESC);
    ("COMMENT", TOKEN_COMMENT);
    ("CONSTRAINT", TOKEN_CONSTRAINT);
    ("PRIMARY", TOKEN_PRIMARY);
    ("KEY", TOKEN_KEY);
    ("FOREIGN", TOKEN_FOREIGN);
    ("REFERENCES", TOKEN_REFERENCES);
    ("UNIQUE", TOKEN_UNIQUE);
    ("CHECK", TOKEN_CHECK);
    ("ENGINE", TOKEN_ENGINE);
    ("CHARSET", TOKEN_CHARSET);
    ("COLLATE", TOKEN_COLLATE);
    ("AUTO_INCREMENT", TOKEN_AUTO_INCREMENT);
    ("CURRENT_TIMESTAMP", TOKEN_CURRENT_TIMESTAMP);
    ("NULLIF", TOKEN_NULLIF);
    ("NULL", TOKEN_NULL);
    ("TRUE", TOKEN_TRUE);
    ("FALSE", TOKEN_FALSE) ].

(** Keyword table of pkg/ddl/spanner/lexar.go:133-258 (lookupIdent). *)
Definition keywords_Sp : list (string * tokentype) :=
  [ ("EQUAL", TOKEN_EQUAL);
    ("GREATER", TOKEN_GREATER);
    ("LESS", TOKEN_LESS);
    ("CREATE", TOKEN_CREATE);
    ("ALTER", TOKEN_ALTER);
    ("DROP", TOKEN_DROP);
    ("RENAME", TOKEN_RENAME);
    ("TRUNCATE", TOKEN_TRUNCATE);
    ("DELETE", TOKEN_DELETE);
    ("UPDATE", TOKEN_UPDATE);
    ("TABLE", TOKEN_TABLE);
    ("INDEX", TOKEN_INDEX);
    ("VIEW", TOKEN_VIEW);
    ("IF", TOKEN_IF);
    ("EXISTS", TOKEN_EXISTS);
    ("USING", TOKEN_USING);
    ("ON", TOKEN_ON);
    ("TO", TOKEN_TO);
    ("WITH", TOKEN_WITH);
    ("BOOL", TOKEN_BOOL);
    ("INT64", TOKEN_INT64);
    ("FLOAT64", TOKEN_FLOAT64);
    ("NUMERIC", TOKEN_NUMERIC);
    ("JSON", TOKEN_JSON);
    ("STRING", TOKEN_STRING);
    ("BYTES", TOKEN_BYTES);
    ("TIMESTAMP", TOKEN_TIMESTAMP);
    ("DATE", TOKEN_DATE);
    ("ARRAY", TOKEN_ARRAY);
    ("STRUCT", TOKEN_STRUCT);
    ("DEFAULT", TOKEN_DEFAULT);
    ("NOT", TOKEN_NOT);
    ("ASC", TOKEN_ASC);
    ("DESC", TOKEN_DESC);
    ("OPTIONS", TOKEN_OPTIONS);
    ("INTERLEAVE", TOKEN_INTERLEAVE);
    ("IN", TOKEN_IN);
    ("PARENT", TOKEN_PARENT);
    ("CASCADE", TOKEN_CASCADE);
    ("NO", TOKEN_NO);
    ("ACTION", TOKEN_ACTION);
    ("CONSTRAINT", TOKEN_CONSTRAINT);
    ("PRIMARY", TOKEN_PRIMARY);
    ("KEY", TOKEN_KEY);
    ("FOREIGN", TOKEN_FOREIGN);
    ("REFERENCES", TOKEN_REFERENCES);
    ("UNIQUE", TOKEN_UNIQUE);
    ("CHECK", TOKEN_CHECK);
    ("NULLIF", TOKEN_NULLIF);
    ("NULL", TOKEN_NULL);
    ("TRUE", TOKEN_TRUE);
    ("FALSE", TOKEN_FALSE);
    ("ROW", TOKEN_ROW);
    ("DELETION", TOKEN_DELETION);
    ("POLICY", TOKEN_POLICY);
    ("OLDER_THAN", TOKEN_OLDER_THAN);
    ("INTERVAL", TOKEN_INTERVAL);
    ("DAY", TOKEN_DAY) ].

(** The switch of lookupIdent of each package: pg:133-258, crdb:140-279, my:149-302, sp:133-258 *)
Definition keywords (d : dialect) : list (string * tokentype) :=
  match d with Pg => keywords_Pg | Crdb => keywords_Crdb | My => keywords_My | Sp => keywords_Sp end.

(** A case of the switch of lookupIdent: pg:133-258 *)
Fixpoint assoc {A} (k : string) (l : list (string * A)) : option A :=
  match l with
  | [] => None
  | (k', v) :: r => if String.eqb k k' then Some v else assoc k r
  end.

(** lookupIdent: pkg/ddl/postgres/lexar.go:133-258 and the same function of the
    other dialects. The Go switch on the upper-cased word is a table lookup. *)
Definition lookupIdent (d : dialect) (ident : string) : tokentype :=
  match assoc (to_upper ident) (keywords d) with
  | Some t => t
  | None => TOKEN_IDENT
  end.

(** Token: pkg/ddl/postgres/lexar.go:10-25 (Literal is a struct with the single
    field Str). *)
Record token := mkTok { tk_type : tokentype; tk_lit : string }.
