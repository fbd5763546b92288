{"id": "C01", "title": "Parsing always terminates", "statement": "For every DDL text given to any of the four dialects' parsers, parsing finishes: it yields statements, an error or a run-time panic, after a number of loop iterations bounded by the number of tokens of the text.", "quantifier": "every byte string, every dialect", "why_tests_cant": "the parser is made of unbounded for-loops; a non-terminating token sequence can be arbitrarily long and odd", "anchors": ["pkg/ddl/{postgres,cockroachdb,mysql,spanner}/parser.go:Parser.Parse", "pkg/ddl/{postgres,cockroachdb,mysql,spanner}/lexar.go:Lexer.NextToken"]}
{"id": "C02", "title": "Parsing never crashes the process", "statement": "For every DDL text, parsing returns statements or an error value and never panics.", "quantifier": "every byte string, every dialect", "why_tests_cant": "panics hide in rare token combinations (unterminated quotes, odd defaults); tests only cover listed inputs", "anchors": ["pkg/ddl/{postgres,cockroachdb,mysql,spanner}/lexar.go:readQuotedLiteral", "pkg/ddl/{postgres,cockroachdb,mysql,spanner}/parser.go:parseColumnDefault", "pkg/ddl/{postgres,cockroachdb,mysql,spanner}/ddl_table.go:Constraints.Append"]}
{"id": "C03", "title": "Layout does not matter", "statement": "Replacing any run of blanks, tabs, newlines and `--` comments that separates two tokens by any other such non-empty run (or adding one at the start or end) does not change the parsed statements or the error/no-error outcome.", "quantifier": "every token sequence, every pair of separator runs", "why_tests_cant": "infinitely many layouts", "anchors": ["pkg/ddl/{postgres,cockroachdb,mysql,spanner}/lexar.go:skipWhitespace", "pkg/ddl/{postgres,cockroachdb,mysql,spanner}/lexar.go:skipComment"]}
{"id": "C04", "title": "Keywords are case-insensitive", "statement": "Changing the letter case of any keyword in a DDL text never changes which kind of token it is; two texts that differ only in the case of keywords are accepted or rejected alike.", "quantifier": "every text and every re-casing of its words", "why_tests_cant": "exponentially many casings", "anchors": ["pkg/ddl/{postgres,cockroachdb,mysql,spanner}/lexar.go:lookupIdent"]}
{"id": "C05", "title": "Tokenising loses nothing", "statement": "Every byte of the text that is not blank or comment belongs to exactly one token and the token texts appear in input order: the text is rebuilt by joining the token texts with the skipped blanks and comments.", "quantifier": "every byte string without a NUL or a non-ASCII byte outside quotes", "why_tests_cant": "covers all inputs and token adjacencies", "anchors": ["pkg/ddl/{postgres,cockroachdb,mysql,spanner}/lexar.go:NextToken"]}
{"id": "C06", "title": "Only CREATE TABLE / CREATE INDEX come out of a parse", "statement": "A successful parse consists only of CREATE TABLE and CREATE INDEX statements, so comparing two parsed texts never fails with `not supported`.", "quantifier": "every pair of texts both accepted by a dialect", "why_tests_cant": "requires all inputs", "anchors": ["pkg/ddl/{postgres,cockroachdb,mysql,spanner}/parser.go:Parse", "pkg/ddl/{postgres,cockroachdb,mysql,spanner}/diff.go:Diff"]}
{"id": "C07", "title": "Constraints of a parsed table are uniquely named", "statement": "In every table produced by a successful parse each constraint has a name and no two constraints share one.", "quantifier": "every accepted text, every dialect", "why_tests_cant": "depends on naming rules for all combinations of column and table constraints", "anchors": ["pkg/ddl/{postgres,cockroachdb,mysql,spanner}/ddl_table.go:Constraints.Append", "pkg/ddl/{postgres,cockroachdb,mysql,spanner}/parser.go:parseTableConstraint"]}
{"id": "C08", "title": "Print then parse is the identity", "statement": "Printing a well-formed schema and parsing the text gives the same schema back (names, types, defaults, nullability, constraints, indexes, order).", "quantifier": "every well-formed schema of the dialect", "why_tests_cant": "unbounded number of tables, columns, expressions", "anchors": ["pkg/ddl/{postgres,cockroachdb,mysql,spanner}/ddl_table_create.go:CreateTableStmt.String", "pkg/ddl/{postgres,cockroachdb,mysql,spanner}/ddl_index_create.go:CreateIndexStmt.String", "pkg/ddl/{postgres,cockroachdb,mysql,spanner}/parser.go:Parse"]}
{"id": "C09", "title": "Normalising is idempotent", "statement": "Parsing a text, printing the result and parsing again is accepted and prints the same text.", "quantifier": "every accepted text", "why_tests_cant": "all accepted texts, including ones with column-level constraints", "anchors": ["pkg/ddl/{postgres,cockroachdb,mysql,spanner}/parser.go:Parse", "pkg/ddl/{postgres,cockroachdb,mysql,spanner}/ddl.go:DDL.String"]}
{"id": "C10", "title": "Files can be concatenated", "statement": "If two texts are accepted, their concatenation (first one ended by a `;` and a line break) is accepted and yields the statements of the first followed by those of the second.", "quantifier": "every pair of accepted texts", "why_tests_cant": "all pairs", "anchors": ["pkg/ddl/{postgres,cockroachdb,mysql,spanner}/parser.go:Parse"]}
{"id": "C11", "title": "A schema does not differ from itself", "statement": "Comparing a schema with itself reports `no difference` and yields no statements.", "quantifier": "every schema value, every dialect", "why_tests_cant": "all schemas", "anchors": ["pkg/ddl/{postgres,cockroachdb,mysql,spanner}/diff.go:Diff"]}
{"id": "C12", "title": "Applying a PostgreSQL diff yields the target", "statement": "Executing the statements of Diff(before, after) on a database whose schema is `before` succeeds and leaves exactly the tables, columns, types, defaults, nullability, constraints and indexes of `after`.", "quantifier": "every pair of well-formed schemas", "why_tests_cant": "exponentially many combinations of changes", "anchors": ["pkg/ddl/postgres/diff.go:Diff", "pkg/ddl/postgres/diff_create_table.go:DiffCreateTable"]}
{"id": "C13", "title": "`No difference` is honest", "statement": "If the comparison reports no difference then the two schemas are equivalent (same tables, columns, types, defaults, nullability, constraints, indexes up to order and quoting).", "quantifier": "every pair of schemas, every dialect", "why_tests_cant": "a missed change needs one specific pair among infinitely many", "anchors": ["pkg/ddl/{postgres,cockroachdb,mysql,spanner}/diff.go:Diff", "pkg/ddl/{postgres,cockroachdb,mysql,spanner}/diff_create_table.go:DiffCreateTable"]}
{"id": "C14", "title": "Applying a diff converges", "statement": "After the statements of a diff have been executed, comparing the resulting schema with the target reports no difference.", "quantifier": "every pair of well-formed schemas", "why_tests_cant": "all pairs", "anchors": ["pkg/ddl/{postgres,cockroachdb,mysql,spanner}/diff.go:Diff"]}
{"id": "C15", "title": "Equal objects are left alone", "statement": "A table or index that is equal on both sides is not mentioned by any statement of the diff, whatever else changes.", "quantifier": "every pair of schemas, every table or index", "why_tests_cant": "frame property over all pairs", "anchors": ["pkg/ddl/{postgres,cockroachdb,mysql,spanner}/diff.go:Diff", "pkg/ddl/{postgres,cockroachdb,mysql,spanner}/diff_create_table.go:DiffCreateTable"]}
{"id": "C16", "title": "No destructive statement without cause", "statement": "A diff contains DROP TABLE t only if t is in `before` and not in `after`, and DROP COLUMN c only if c is in the old and not in the new table; no table, column or index that exists on both sides is lost.", "quantifier": "every pair of schemas, every dialect", "why_tests_cant": "data-loss safety over all pairs", "anchors": ["pkg/ddl/{postgres,cockroachdb,mysql,spanner}/diff.go:Diff", "pkg/ddl/{postgres,cockroachdb,mysql,spanner}/diff_create_table.go:DiffCreateTable"]}
{"id": "C17", "title": "Statement order", "statement": "In a diff all statements for vanished objects come first, then those for new objects, then changes; within a table constraints are dropped before columns change and added after every column exists.", "quantifier": "every pair of schemas", "why_tests_cant": "all pairs", "anchors": ["pkg/ddl/{postgres,cockroachdb,mysql,spanner}/diff.go:Diff", "pkg/ddl/{postgres,cockroachdb,mysql,spanner}/diff_create_table.go:DiffCreateTable"]}
{"id": "C18", "title": "Absent side", "statement": "Comparing an absent schema with S yields exactly the statements of S; comparing S with an absent schema yields one DROP per object; two absent schemas do not differ.", "quantifier": "every schema value", "why_tests_cant": "all schemas", "anchors": ["pkg/ddl/{postgres,cockroachdb,mysql,spanner}/diff.go:Diff", "pkg/ddl/{postgres,cockroachdb,mysql,spanner}/diff_create_table.go:DiffCreateTable"]}
{"id": "C19", "title": "A diff can be executed in the printed order", "statement": "The statements of a diff, executed top to bottom by a database that enforces object dependencies (indexes need their table and columns, dropping a table or column drops what depends on it), never fail.", "quantifier": "every pair of well-formed schemas", "why_tests_cant": "order-dependent failures need specific combinations of changes", "anchors": ["pkg/ddl/postgres/diff.go:Diff", "pkg/ddl/postgres/diff_create_table.go:DiffCreateTable"]}
{"id": "C20", "title": "Comparing does not change its inputs", "statement": "Comparing two schemas leaves both unchanged, so that comparing again or printing them later gives the same answer.", "quantifier": "every pair of schemas and every later use", "why_tests_cant": "aliasing effects over histories of calls", "anchors": ["pkg/ddl/{postgres,cockroachdb,mysql,spanner}/diff.go:Diff", "pkg/ddl/{postgres,cockroachdb,mysql,spanner}/diff_create_table.go:DiffCreateTable"]}
{"id": "C21", "title": "Printed statements are well delimited", "statement": "Every printed statement ends with `;` and a line break, and every line of an explanatory comment is preceded by `-- `, whatever text the comment contains; so explanatory text is never executed.", "quantifier": "every statement and every comment text", "why_tests_cant": "all comment texts", "anchors": ["pkg/ddl/{postgres,cockroachdb,mysql,spanner}/ddl_table_alter.go:AlterTableStmt.String", "pkg/ddl/{postgres,cockroachdb,mysql,spanner}/ddl_index_drop.go:DropIndexStmt.String"]}
{"id": "C22", "title": "Nothing is executed without approval", "statement": "`apply` sends no statement to the database unless auto-approve is set or the first line typed is exactly `yes`.", "quantifier": "every input typed, every configuration, every diff outcome", "why_tests_cant": "all inputs", "anchors": ["pkg/ddlctl/apply/ddlctl_apply.go:Command", "pkg/ddlctl/apply/ddlctl_apply.go:prompt"]}
{"id": "C23", "title": "What is executed is what was shown", "statement": "The texts sent to the database in one attempt are exactly the displayed statements, in order, without their comments.", "quantifier": "every displayed diff", "why_tests_cant": "all statement texts, including string literals that contain `--` or `;`", "anchors": ["pkg/ddlctl/apply/ddlctl_apply.go:splitExec", "pkg/internal/util/remove_comment.go:RemoveCommentsAndEmptyLines"]}
{"id": "C24", "title": "Success is honest", "statement": "`apply` reports success only if there was an attempt in which every statement either succeeded or failed with an `already exists`/`Duplicate column name` error (the latter for MySQL only).", "quantifier": "every behaviour of the database over time", "why_tests_cant": "quantifies over all fault schedules", "anchors": ["pkg/ddlctl/apply/ddlctl_apply.go:Apply", "pkg/ddlctl/apply/ddlctl_apply.go:splitExec"]}
{"id": "C25", "title": "Bounded retries", "statement": "`apply` executes each statement at most (number of pieces + 1) times and then gives up with an error.", "quantifier": "every behaviour of the database", "why_tests_cant": "all fault schedules", "anchors": ["pkg/ddlctl/apply/ddlctl_apply.go:splitExec"]}
{"id": "C26", "title": "Retrying is harmless", "statement": "If an attempt fails part-way, a later attempt can still succeed: a statement that succeeded is not executed again, or executing it again is not an error.", "quantifier": "every fault schedule", "why_tests_cant": "fault schedules and statement sets", "anchors": ["pkg/ddlctl/apply/ddlctl_apply.go:splitExec"]}
{"id": "C27", "title": "Spanner changes run as one batch", "statement": "For Spanner nothing takes effect unless every statement was accepted into the batch: the statements are sent between START BATCH DDL and RUN BATCH, and RUN BATCH is sent only if no earlier statement failed.", "quantifier": "every diff, every failure point", "why_tests_cant": "all failure points", "anchors": ["pkg/ddlctl/apply/ddlctl_apply.go:Apply"]}
{"id": "C28", "title": "No difference means no effect", "statement": "When there is no difference `diff` prints nothing and succeeds, `apply` executes nothing, asks nothing and succeeds.", "quantifier": "every pair of sources without difference", "why_tests_cant": "all pairs", "anchors": ["pkg/ddlctl/diff/ddlctl_diff.go:Command", "pkg/ddlctl/apply/ddlctl_apply.go:Command"]}
{"id": "C29", "title": "Bad sources or dialects have no effect", "statement": "If either source cannot be read or parsed, or the dialect is empty or unknown, `diff` prints no statement and `apply` executes nothing; both report an error.", "quantifier": "every pair of sources and dialect string", "why_tests_cant": "all failing inputs", "anchors": ["pkg/ddlctl/diff/ddlctl_diff.go:Diff", "pkg/ddlctl/apply/ddlctl_apply.go:Command"]}
{"id": "C30", "title": "Generation is deterministic", "statement": "The DDL text generated from a source directory does not depend on the iteration order of internal maps.", "quantifier": "every set of annotated sources, every iteration order", "why_tests_cant": "map order is random per run", "anchors": ["pkg/internal/lang/go/parse.go:Parse", "pkg/internal/generator/ddl.go"]}
{"id": "C31", "title": "Generated tables are well-formed", "statement": "Every generated CREATE TABLE separates its columns and constraints by commas exactly (none trailing, none missing) and ends with `;`.", "quantifier": "every list of columns, constraints, options and comments", "why_tests_cant": "all combinations of empty/non-empty lists", "anchors": ["pkg/internal/generator/dialect/*/create_table.go"]}
{"id": "C32", "title": "Generated comments stay comments", "statement": "Text taken from source comments appears in generated DDL only on lines starting with `-- `.", "quantifier": "every comment text", "why_tests_cant": "all texts", "anchors": ["pkg/internal/generator/dialect/*/create_table.go", "pkg/internal/lang/util/trim.go"]}
{"id": "C33", "title": "Configuration roll-back", "statement": "Rolling back a loaded configuration restores exactly the configuration in effect before it was loaded, for any nesting of loads. A load puts the configuration of the command line into effect and switches on exactly the logs it asks for.", "quantifier": "every sequence of loads and roll-backs", "why_tests_cant": "histories", "anchors": ["pkg/internal/config/config.go:Load"]}
{"id": "C34", "title": "Shown Spanner indexes list their own columns", "statement": "The CREATE INDEX text shown for a Spanner index lists the columns of that index and no others.", "quantifier": "every database content", "why_tests_cant": "database contents", "anchors": ["pkg/show/spanner/show_create_all_tables.go"]}
{"id": "C35", "title": "Applying a MySQL diff yields the target", "statement": "As C12, for MySQL (columns with character set, collation, auto-increment, on-update action and comment; keys; table options).", "quantifier": "every pair of well-formed schemas", "why_tests_cant": "exponentially many combinations", "anchors": ["pkg/ddl/mysql/diff.go:Diff", "pkg/ddl/mysql/diff_create_table.go:DiffCreateTable"]}
{"id": "C36", "title": "Applying a CockroachDB diff yields the target", "statement": "As C12, for CockroachDB (with in-table indexes, invisible and computed columns).", "quantifier": "every pair of well-formed schemas", "why_tests_cant": "exponentially many combinations", "anchors": ["pkg/ddl/cockroachdb/diff.go:Diff", "pkg/ddl/cockroachdb/diff_create_table.go:DiffCreateTable"]}
{"id": "C37", "title": "Applying a Spanner diff yields the target", "statement": "As C12, for Spanner (column options, row deletion policy, interleaving; changed primary key or parent re-creates the table).", "quantifier": "every pair of well-formed schemas", "why_tests_cant": "exponentially many combinations", "anchors": ["pkg/ddl/spanner/diff.go:Diff", "pkg/ddl/spanner/diff_create_table.go:DiffCreateTable"]}
{"id": "C38", "title": "Comment removal keeps the statements", "statement": "Removing comments and empty lines from a text keeps every line that holds no comment marker and is not empty, in order, and is idempotent.", "quantifier": "every text", "why_tests_cant": "all texts", "anchors": ["pkg/internal/util/remove_comment.go:RemoveCommentsAndEmptyLines"]}
{"id": "C39", "title": "Trimming helpers remove exactly the margin", "statement": "Trimming empty lines at the tail (or a comment prefix at the head) of a generated text removes only those and nothing else.", "quantifier": "every list of lines", "why_tests_cant": "all texts", "anchors": ["pkg/internal/lang/util/trim.go"]}
{"id": "C40", "title": "Quoting a name does not create a difference", "statement": "Two schemas that differ only in whether names are quoted (with the dialect's identifier quote) do not differ.", "quantifier": "every schema and every choice of quoting", "why_tests_cant": "all subsets of names", "anchors": ["pkg/ddl/{postgres,cockroachdb,mysql,spanner}/ddl.go:Ident.StringForDiff", "pkg/ddl/{postgres,cockroachdb,mysql,spanner}/diff.go:Diff"]}
{"id": "C41", "title": "Order does not create a difference", "statement": "Permuting the statements of a schema, the columns of a table or the constraints of a table never creates a difference.", "quantifier": "every schema and permutation", "why_tests_cant": "factorially many permutations", "anchors": ["pkg/ddl/{postgres,cockroachdb,mysql,spanner}/diff.go:Diff", "pkg/ddl/{postgres,cockroachdb,mysql,spanner}/diff_create_table.go:DiffCreateTable"]}
{"id": "C42", "title": "Changed indexes are re-created", "statement": "An index whose uniqueness, table or column list changed is dropped and then created with the new definition, in this order and exactly once.", "quantifier": "every pair of schemas", "why_tests_cant": "all pairs", "anchors": ["pkg/ddl/{postgres,cockroachdb,mysql,spanner}/diff.go:Diff"]}
{"id": "C43", "title": "The diff is minimal", "statement": "If the set of statements is not empty then every statement is justified by a difference: each ADD adds something absent before, each DROP drops something present before, each ALTER changes an attribute that differs.", "quantifier": "every pair of schemas", "why_tests_cant": "all pairs", "anchors": ["pkg/ddl/{postgres,cockroachdb,mysql,spanner}/diff_create_table.go:DiffCreateTable"]}
{"id": "C44", "title": "Renaming a table", "statement": "Comparing two tables with different names yields first a rename of the old to the new name and all further statements address the new name.", "quantifier": "every pair of tables", "why_tests_cant": "all pairs", "anchors": ["pkg/ddl/{postgres,cockroachdb,mysql,spanner}/diff_create_table.go:DiffCreateTable"]}
{"id": "C45", "title": "Generating never crashes", "statement": "Generating DDL from Go sources returns a text or an error, it never panics.", "quantifier": "every annotated source (any fields, tags, comments), every dialect and language", "why_tests_cant": "the sources are unbounded; embedded and untagged fields are easily forgotten", "anchors": ["pkg/internal/lang/go/parse.go:Parse", "pkg/internal/lang/go/extract.go", "pkg/internal/generator/ddl.go"]}
{"id": "C46", "title": "A failing generate leaves the destination alone", "statement": "If the generate command reports an error the destination file holds what it held before.", "quantifier": "every source and every destination content", "why_tests_cant": "all failing inputs", "anchors": ["pkg/ddlctl/generate/ddlctl_generate.go:Command"]}
{"id": "C47", "title": "A printed statement says what it is", "statement": "Every DROP, ALTER and CREATE statement ddlctl prints, read by a reader written from the grammar of the dialect, is the statement it was printed from; different statements are printed differently; this holds for every statement of a difference.", "quantifier": "every statement, every pair of schemas, every dialect", "why_tests_cant": "statements nest names, types, expressions and constraints without bound; the tests compare printed texts with expected texts only", "anchors": ["pkg/ddl/{postgres,cockroachdb,mysql,spanner}/ddl_table_alter.go", "pkg/ddl/{postgres,cockroachdb,mysql,spanner}/ddl_table_drop.go", "pkg/ddl/{postgres,cockroachdb,mysql,spanner}/ddl_index_drop.go", "pkg/ddl/{postgres,cockroachdb,mysql,spanner}/diff.go:Diff"]}
{"id": "C48", "title": "Applying a schema makes the database what the schema says", "statement": "If the database reads and executes the texts it is sent, an approved run of apply ends with success, no statement fails or is repeated, and afterwards the catalogue is the one the target schema describes.", "quantifier": "every pair of schemas, every initial catalogue described by the first one, every dialect", "why_tests_cant": "joins parsing, comparing, printing, cutting into statements and execution; the tests stub the database", "anchors": ["pkg/ddlctl/apply/ddlctl_apply.go:Command", "pkg/ddlctl/apply/ddlctl_apply.go:Apply", "pkg/ddlctl/diff/ddlctl_diff.go:Diff"]}
{"id": "C49", "title": "Every annotated struct becomes one table with exactly its columns", "statement": "For Go sources whose annotations are written `// tag: word: text` and whose fields are named and carry raw-string tags, generate does not panic and the statements generated are, up to order and comments, exactly one table per annotated comment group of a struct with columns (its typed fields in order, named by tag or field, primary key as tagged, constraints and options as annotated, name from the last table annotation or the struct) and one index per index annotation; of a directory exactly the .go files that are not tests are read, in order.", "quantifier": "every configuration, tag reader, sort, list of files and comment groups", "why_tests_cant": "combinations of annotation lines, blanks, fields and tags are unbounded; the tests use a handful of fixed sources", "anchors": ["pkg/internal/lang/go/parse.go:parseFile", "pkg/internal/lang/go/parse.go:Parse", "pkg/internal/lang/go/extract_source.go:extractDDLSourceFromDDLTagGo", "pkg/internal/lang/util/regex.go", "pkg/internal/generator/ddl_create_table.go"]}
{"id": "C50", "title": "Only annotations ask for statements", "statement": "Comment lines that are not annotations with the configured tag contribute nothing but comments to the generated statements.", "quantifier": "every comment group", "why_tests_cant": "comments are arbitrary text", "anchors": ["pkg/internal/lang/util/regex.go:12", "pkg/internal/lang/go/parse.go:117"]}
{"id": "C51", "title": "Generated statements follow the order of the source lines", "statement": "The statements generated from a file are in the numeric order of the lines they were read from (for lines below 10^9).", "quantifier": "every file, every sort that sorts", "why_tests_cant": "the order depends on the comparison of padded numbers as text for all numbers", "anchors": ["pkg/internal/lang/go/parse.go:225"]}
{"id": "C52", "title": "The text generated from Go sources is read as the schema they describe", "statement": "When the tags and annotations of annotated structs say the same as the parts of written statements of a dialect, `ddlctl generate` succeeds and the parser of that dialect reads the generated text as exactly those tables, columns, keys, constraints, options and indexes; comments, source positions and padding play no part.", "quantifier": "every dialect, every file or directory of sources without NUL whose annotations have the tokens of statements satisfying written_ok, every stable reading of tags, every sort", "why_tests_cant": "the generator and the parsers are tested separately on fixed files; their composition ranges over all structs, tags, comments and orders", "anchors": ["pkg/internal/generator/dialect/postgres/create_table.go:14", "pkg/internal/generator/dialect/mysql/create_table.go:14", "pkg/internal/generator/dialect/spanner/create_table.go:14", "pkg/internal/lang/go/parse.go:77", "pkg/ddl/postgres/parser.go:parseColumns"]}
{"id": "C53", "title": "Every written form of a schema is read as the schema it means", "statement": "A text whose tokens are those of a written schema - column clauses in any order and repeated, inline PRIMARY KEY/UNIQUE/REFERENCES/CHECK, columns and constraints mixed, constraint names left out - is accepted and read as exactly the schema it means: the last clause wins, inline keys, references and checks become named constraints, missing names get the dialect's default name, nothing is lost or added.", "quantifier": "every dialect, every list of written statements satisfying written_ok, every text with the same tokens", "why_tests_cant": "orders and combinations of clauses, keys, constraints and names are unbounded; the tests parse a few fixed schemas", "anchors": ["pkg/ddl/postgres/parser.go:parseColumn", "pkg/ddl/postgres/parser.go:parseColumns", "pkg/ddl/mysql/parser.go:parseColumn", "pkg/ddl/cockroachdb/parser.go:parseColumn", "pkg/ddl/spanner/parser.go:parseColumn", "pkg/ddl/cockroachdb/parser.go:699"]}
{"id": "C54", "title": "A shown Spanner database is read as the statements it consists of", "statement": "The text `ddlctl show` prints for a Spanner database is read by the Spanner parser as exactly the tables, columns, defaults, options, primary keys, row deletion policies and indexes of the database, so that `ddlctl diff` between the database and a file that means the same statements reports no difference.", "quantifier": "every content of the information schema (tables, columns, options, keys, indexes, policies, texts with the tokens of a part of a statement), every sort", "why_tests_cant": "the show command is only tested against a live emulator with a fixed schema; the composition of show, parser and diff ranges over all databases", "anchors": ["pkg/show/spanner/show_create_all_tables.go:49", "pkg/show/spanner/show_create_all_tables.go:76", "pkg/show/spanner/show_create_all_tables.go:165", "pkg/ddl/spanner/parser.go:parseCreateTableStmt", "pkg/ddl/spanner/parser.go:parseColumn"]}
{"id": "C55", "title": "A shown PostgreSQL schema is read as the statements it consists of", "statement": "The text `ddlctl show` prints for a PostgreSQL schema is read by the PostgreSQL parser as exactly the tables, columns, defaults, constraints and indexes of the schema, so that `ddlctl diff` between the database and a file that means the same statements reports no difference.", "quantifier": "every content of the information schema (tables and views of any schemas, columns, types, defaults, constraints of all kinds, indexes), every sort", "why_tests_cant": "the query is only tested against a live server with a fixed schema; the composition of query, parser and diff ranges over all databases", "anchors": ["pkg/show/postgres/show_create_all_tables.go:16", "pkg/show/postgres/show_create_all_tables.go:95", "pkg/show/postgres/show_create_all_tables.go:128", "pkg/ddl/postgres/parser.go:parseCreateTableStmt", "pkg/ddl/postgres/parser.go:parseCreateIndexStmt"]}
{"id": "C56", "title": "Applying a schema a second time does nothing", "statement": "After `ddlctl apply` has succeeded, a further `ddlctl diff` with the same source reports no difference and a further `ddlctl apply` executes nothing, provided the database shows the catalogue the first run left behind.", "quantifier": "every dialect, every source, every shown database before and every text showing the database afterwards, every sort", "why_tests_cant": "it composes two whole runs with an arbitrary database in between; the tests run diff on fixed pairs of texts and never apply twice", "anchors": ["pkg/ddlctl/apply/ddlctl_apply.go:Command", "pkg/ddlctl/diff/ddlctl_diff.go:Command", "pkg/ddl/postgres/diff.go:Diff"]}
{"id": "C57", "title": "A shown MySQL database is read as the tables it consists of", "statement": "The text `ddlctl show` prints for a MySQL database is read by the MySQL parser as exactly the tables, columns, keys and foreign keys of the database, so that `ddlctl diff` between the database and a file that means the same statements reports no difference; if one query fails nothing is shown.", "quantifier": "every list of tables as SHOW CREATE TABLE prints them, every sort", "why_tests_cant": "show is only run against a live server with a fixed schema; the composition of show, parser and diff ranges over all databases", "anchors": ["pkg/show/mysql/show_create_all_tables.go:35", "pkg/show/mysql/show_create_all_tables.go:69", "pkg/ddl/mysql/parser.go:parseCreateTableStmt", "pkg/ddl/mysql/parser.go:parseColumn"]}
{"id": "C58", "title": "A shown CockroachDB database is read as the tables it consists of", "statement": "The text `ddlctl show` prints for a CockroachDB database is read by the CockroachDB parser as exactly the tables, columns, keys, indexes and foreign keys of the database, so that `ddlctl diff` between the database and a file that means the same statements reports no difference.", "quantifier": "every list of rows as SHOW CREATE ALL TABLES returns them, every sort", "why_tests_cant": "show is only run against a live server with a fixed schema; the composition of show, parser and diff ranges over all databases", "anchors": ["pkg/show/cockroachdb/show_create_all_tables.go:23", "pkg/ddl/cockroachdb/parser.go:parseCreateTableStmt", "pkg/ddl/cockroachdb/parser.go:Parse"]}
{"id": "C59", "title": "Applying a directory of annotated sources brings the database to the schema they describe", "statement": "`ddlctl apply DSN DIRECTORY`, with a directory of annotated Go files and a live database, succeeds and leaves the database with the catalogue the annotations describe; every statement sent is accepted.", "quantifier": "every dialect, every tree of annotated Go syntax, every database, every server that executes what it is sent, every sort", "why_tests_cant": "it composes generate, show, two parses, diff, printing, splitting and execution; the tests exercise the parts on fixed inputs", "anchors": ["pkg/ddlctl/apply/ddlctl_apply.go:Command", "pkg/ddlctl/diff/ddlctl_diff.go:resolve", "pkg/ddlctl/generate/ddlctl_generate.go:Generate", "pkg/ddlctl/show/ddlctl_show.go:Show"]}
{"id": "C60", "title": "An argument stands for the schema generate or show would print for it", "statement": "`ddlctl diff` changes nothing; what `generate` or `show` print, saved in a file, does not differ from what it was made from; a Go source file given to diff or apply stands for the statements generate prints for it, as a directory does.", "quantifier": "every world, all arguments, all file contents", "why_tests_cant": "it relates different subcommands with each other over all contents of files and databases", "anchors": ["pkg/ddlctl/diff/ddlctl_diff.go:resolve", "pkg/ddlctl/diff/ddlctl_diff.go:Command", "pkg/ddlctl/generate/ddlctl_generate.go:Generate"]}
{"id": "C61", "title": "Collecting constraints puts the primary key first and keeps the rest", "statement": "In CockroachDB and MySQL, appending differently named constraints one by one yields all of them, the primary key first and the others in the order they were written.", "quantifier": "every sequence of differently named constraints with at most one primary key, every sequence of numbers of the sort's generator", "why_tests_cant": "the comparison given to sort.Slice is not an order, so the result depends on the sorting algorithm of the library and on the number of elements; the tests have few constraints", "anchors": ["pkg/ddl/mysql/ddl_table.go:22", "pkg/ddl/mysql/ddl_table.go:31", "pkg/ddl/cockroachdb/ddl_table.go:31"]}
{"id": "C62", "title": "Generated statements are sorted by the library's sort", "statement": "sort.Slice, as called for the statements generated from a file, ends, keeps exactly the given statements and leaves none behind a statement with a greater key; up to twelve statements those with equal keys keep their order.", "quantifier": "every list of statements of any length, every sequence of numbers of the library's generator", "why_tests_cant": "pdqsort has many phases (insertion sort, heap sort, partitioning, partial insertion, shuffling) that only appear for long lists and special orders", "anchors": ["pkg/internal/lang/go/parse.go:parseFile"]}
{"id": "C63", "title": "Struct tags are read as the convention writes them", "statement": "For a raw struct tag made of key:\"value\" pairs, the value read under a key is that of the first pair with the key, with its escapes resolved, and the empty text if no pair has it; so the column a field stands for is the one its written tag describes. (False as stated for all tags a Go programmer can write: a tag over several lines, a tag in double quotation marks and an unknown escape lose the column or its type without a message.)", "quantifier": "every tag, every key, every value including escapes and characters outside ASCII", "why_tests_cant": "the values, escapes, spacing and order of pairs are unbounded, and what is lost is lost silently", "anchors": ["pkg/internal/lang/go/parse.go:parseFile"]}
{"id": "C64", "title": "Earlier generations in a process do not matter", "statement": "Generating from sources gives the same text in a fresh process and after any other generations and loads of the configuration in the same process; in particular the two arguments of diff and apply do not influence each other. (False as stated: the expression for annotations is compiled once, so that after a load with another DDL tag the annotations of the first tag are combined with the field tags of the second.)", "quantifier": "every sequence of generations, every configuration, every source tree", "why_tests_cant": "the tests set one tag for the whole test binary; the cell is process-wide and hidden", "anchors": ["pkg/internal/lang/go/extract_source.go:DDLTagGoCommentLineRegex", "pkg/internal/lang/go/extract_source.go:extractDDLSourceFromDDLTagGo", "pkg/internal/lang/go/parse.go:Parse"]}
{"id": "C65", "title": "What a command line can do", "statement": "Options are taken from the flag, else the environment, else the documented default, and mean the same for generate, diff and apply; a statement is executed only by apply with two arguments, approved by the auto-approve flag or environment variable of that call or by typing yes; only generate writes files; apply exits with 0 only if there was no difference or every statement of the last attempt was accepted.", "quantifier": "every command line and environment as read by the cli library, every file system, database, input and answer", "why_tests_cant": "the command table, the option lookup and the commands are only tested separately and for single command lines", "anchors": ["pkg/ddlctl/ddlctl.go:DDLCtl", "cmd/ddlctl/main.go:main", "pkg/internal/config/config.go:load"]}
{"id": "C66", "title": "generate writes its destination only, and what the sources say", "statement": "generate changes no file but its destination (the named file, or ddlctl.gen.sql in the named directory); running it again changes nothing; on success the destination holds the text generated from the sources as they were. (False as stated if the destination is itself one of the sources: it is emptied before it is read.)", "quantifier": "every file system, every source and destination, every command line", "why_tests_cant": "the overlap of sources and destination and the second run are not tried by tests", "anchors": ["pkg/ddlctl/generate/ddlctl_generate.go:Command", "pkg/internal/lang/go/parse.go:Parse", "pkg/internal/lang/go/parse.go:walkDirFn"]}
{"id": "C67", "title": "A command that cannot be carried out says so and changes nothing", "statement": "Called without its arguments or without a supported dialect a command ends with an error, prints and executes nothing and leaves all files alone. (False as stated: show and generate panic when arguments are missing, and generate without a dialect has emptied its destination.)", "quantifier": "every command line and environment, every file system and database", "why_tests_cant": "wrong command lines are unbounded and the tests of the commands give well-formed ones", "anchors": ["pkg/ddlctl/ddlctl.go:DDLCtl", "pkg/ddlctl/generate/ddlctl_generate.go:Command", "pkg/ddlctl/show/ddlctl_show.go:Command"]}
{"id": "C68", "title": "An interrupted apply leaves a sound database", "statement": "Whenever a run of apply breaks off, the tables and indexes that the target does not change are as they were, every table and column that is there before and after is there, and with Spanner either nothing or everything has been done. (That changed objects are there as well is false: a changed index or key is dropped before it is created again.)", "quantifier": "all pairs of schemas, every position at which the run breaks off, every sort of the constraints", "why_tests_cant": "the break-off positions of all differences are unbounded and the tests never stop a run in the middle", "anchors": ["pkg/ddlctl/apply/ddlctl_apply.go:Apply", "pkg/ddlctl/apply/ddlctl_apply.go:splitExec", "pkg/ddl/postgres/diff.go:Diff", "pkg/ddl/postgres/diff_create_table.go:DiffCreateTable"]}
{"id": "C69", "title": "Schemas of plain texts are applied as displayed", "statement": "If no name, word, sign or literal of the two schemas contains two dashes, a line break, a carriage return or a semicolon at its end, and no statement is longer than 20000 bytes, then every statement of the difference is cut out of the displayed text exactly as printed, and a run of apply sends these statements and nothing else: all of them once per attempt, with Spanner a part of one batch from its beginning. Two dashes are never sent outside a batch, so that condition is needed.", "quantifier": "all pairs of plain schemas, four dialects, every sort of the constraints, every explaining comment whose lines are not longer than the compared texts, every world", "why_tests_cant": "the tests apply a handful of schemas; that no statement built from plain parts contains a mark that cuts it holds for all schemas only by following every printer", "anchors": ["pkg/ddlctl/apply/ddlctl_apply.go:splitExec", "pkg/ddlctl/apply/ddlctl_apply.go:Apply", "pkg/internal/util/remove_comment.go:RemoveCommentsAndEmptyLines", "pkg/ddl/postgres/diff_create_table.go:DiffCreateTable", "pkg/ddl/postgres/ddl_table_create.go:String"]}
{"id": "C70", "title": "Migrations in a row end where the last schema says", "statement": "Executing the differences of a row of schemas one after the other gives the database the last schema describes, whatever the schemas in between: two ways to the same schema give the same database, and a migration back restores the database. The same for runs of apply that are told what the database contains. (False without a condition: a MySQL table option stays behind, the method of a Postgres index depends on the way.)", "quantifier": "all rows of schemas of any length whose neighbours are reconcilable, four dialects, every sort of the constraints", "why_tests_cant": "tests compare single pairs of schemas; that errors do not add up along any row of migrations is a statement about all rows", "anchors": ["pkg/ddl/postgres/diff.go:Diff", "pkg/ddl/postgres/diff_create_table.go:DiffCreateTable", "pkg/ddl/mysql/diff_create_table.go:DiffCreateTable", "pkg/ddl/spanner/diff_create_table.go:DiffCreateTable", "pkg/ddlctl/apply/ddlctl_apply.go:Apply"]}
{"id": "C71", "title": "A difference is not longer than the two schemas", "statement": "The number of statements of a difference is at most the number of parts of the two schemas, where a statement of the old schema counts twice, a column of it three times, a constraint of it twice and everything else once. (False when the old schema describes a table several times; then the product of the sizes is a bound.)", "quantifier": "all pairs of schemas, four dialects, every sort of the constraints", "why_tests_cant": "a bound on the size of the output for inputs of every size cannot be sampled", "anchors": ["pkg/ddl/postgres/diff.go:Diff", "pkg/ddl/postgres/diff_create_table.go:DiffCreateTable", "pkg/ddl/cockroachdb/diff_create_table.go:DiffCreateTable", "pkg/ddl/mysql/diff_create_table.go:DiffCreateTable", "pkg/ddl/spanner/diff_create_table.go:DiffCreateTable"]}
{"id": "C72", "title": "The conditions for a working difference are exact", "statement": "For PostgreSQL, of two schemas that a database accepts, executing the difference leads from the one to the other exactly if an executable test of the two schemas holds (no table dropped with its index, no dropped column used by a constraint or index of both sides, no change the compared texts do not show). For CockroachDB the same, of schemas between which no index moves or changes the way it is declared. Hence neither the sort of the constraints nor the comments decide whether a difference works.", "quantifier": "all pairs of schemas without an object described twice, with every index behind its table; every sort of the constraints", "why_tests_cant": "that a list of failure causes is complete and every cause on it a real one is a statement about all pairs of schemas", "anchors": ["pkg/ddl/postgres/diff.go:Diff", "pkg/ddl/postgres/diff_create_table.go:DiffCreateTable", "pkg/ddl/cockroachdb/diff.go:Diff", "pkg/ddl/cockroachdb/diff_create_table.go:DiffCreateTable"]}
{"id": "C73", "title": "Ordinary schemas are compared correctly", "statement": "If both schemas are ordinary (a test of one schema: pieces of expressions show where they end and whether they are string literals, type arguments are separated by commas, names of key columns have no blank, comma or parenthesis, no index method inside CREATE TABLE, no character set of a column) and the change is safe (a test of what changes, not of texts: no table dropped with its index, no dropped column still used, ...), then executing the difference leads from the one to the other, in all four dialects. Conversely the difference of ordinary schemas whose tables stand before their indexes fails for every change that is not safe: for PostgreSQL; for CockroachDB and MySQL if no index moves into, out of or between table definitions; for Spanner if no table that stays has its options changed. \"No difference\" is reported for two ordinary schemas exactly if they describe the same database, unless they differ in something that is never looked at. The texts compared for types, defaults and constraints are equal exactly if the meanings are. A whole run of apply between ordinary schemas of plain texts succeeds for every safe change, with no statement refused.", "quantifier": "all pairs of ordinary schemas; every dialect; every sort of the constraints", "why_tests_cant": "that no two different types, defaults, constraints, indexes or options share a comparison text is a statement about all texts", "anchors": ["pkg/ddl/postgres/ddl_table.go:StringForDiff", "pkg/ddl/postgres/ddl.go:DataType.StringForDiff", "pkg/ddl/mysql/ddl_table.go:StringForDiff", "pkg/ddl/cockroachdb/ddl_table.go:StringForDiff", "pkg/ddl/spanner/ddl_table.go:StringForDiff", "pkg/ddl/postgres/diff.go:Diff"]}
{"id": "C74", "title": "Whole statements added or removed are exactly what the difference says", "statement": "If a schema is changed by adding whole statements for objects it does not describe, by removing whole statements and by reordering (no object being described twice), then the difference consists of one DROP for each removed statement, in their order, followed by the added statements, word for word and in their order. In particular a schema that is continued differs from what it was by exactly the continuation; the same for a file whose text is continued, and apply then sends the statements of the continuation and nothing else. If the whole schema can be created from nothing in the order in which it is written, dependencies enforced, then the difference can be executed.", "quantifier": "all schemas, all continuations, every dialect, every sort of the constraints", "why_tests_cant": "quantifies over all schemas and all ways to interleave old and new statements", "anchors": ["pkg/ddl/postgres/diff.go:Diff", "pkg/ddl/mysql/diff.go:Diff", "pkg/ddl/cockroachdb/diff.go:Diff", "pkg/ddl/spanner/diff.go:Diff"]}
{"id": "C75", "title": "Exactly the comments described by the expressions are annotations", "statement": "A comment of a Go source is taken for an annotation exactly when a beginning of it is described by the regular expression of the program: an optional comment mark, the configured tag, a colon. A comment line of an annotated group is taken for an index, a table, a constraint or an option exactly when it is described by the corresponding expression; what it is taken to say is the rest of a line behind a text described by the front of the expression. What it says is completed by CREATE TABLE or CREATE INDEX exactly when it does not contain such a statement.", "quantifier": "all tags (taken literally) and all comment texts, of any length and with any bytes", "why_tests_cant": "The expressions contain several adjacent repetitions and optional groups; a matcher that gives up a possibility too early is only noticed by texts that need exactly this possibility. A test shows some texts, not that the texts found and the texts described are the same set.", "anchors": ["pkg/internal/lang/go/extract_source.go:37", "pkg/internal/lang/util/regex.go:12-28", "pkg/internal/generator/ddl_create_table.go:33-45", "pkg/internal/generator/ddl_create_index.go:29-41"]}
{"id": "C76", "title": "Growing a schema only adds, shrinking it only removes", "statement": "If every table, column, constraint, index, option and row deletion policy of the old schema is in the new one as it is, then every statement of the difference is an addition (CREATE TABLE, CREATE INDEX, ADD COLUMN, ADD CONSTRAINT, ADD ROW DELETION POLICY, or an option that was not set), however far the statements are carried out nothing that was there is touched, and for ordinary schemas the difference leads to the new schema. If everything of the new schema was in the old one as it is, every statement removes something and at no time is anything there that was not. Where a difference leads to its target, it consists of additions (removals) exactly if the schema grows (shrinks). The same holds of what apply sends, and wherever an apply that grows a database is cut off nothing that was there is lost. Table and index names are written the same way on both sides; a Spanner table's primary key and interleaving are the same and in the same order on both sides.", "quantifier": "all pairs of schemas, every dialect, every sort of the constraints", "why_tests_cant": "quantifies over all pairs of schemas and all points of interruption", "anchors": ["pkg/ddl/{postgres,cockroachdb,mysql,spanner}/diff.go:Diff", "pkg/ddl/{postgres,cockroachdb,mysql,spanner}/diff_create_table.go:DiffCreateTable"]}
{"id": "C77", "title": "Two single tables are compared as schemas are", "statement": "Comparing two tables of one name with DiffCreateTable gives what comparing the schemas that consist of them gives. The option that adds constraints without validating them (NOT VALID) changes nothing but the mark on the constraints that are added.", "quantifier": "all pairs of tables, every dialect, every sort of the constraints", "why_tests_cant": "quantifies over all pairs of tables", "anchors": ["pkg/ddl/{postgres,cockroachdb,mysql,spanner}/diff_create_table.go:DiffCreateTable"]}
{"id": "C78", "title": "The types of generated columns stand below each other", "statement": "In a generated CREATE TABLE statement every column has its own line, and what stands in front of the types (name in quotation marks and blanks, at least one) has the same number of characters in all lines, also if names contain characters of several bytes.", "quantifier": "all lists of columns with names in UTF-8, all dialects, any indentation", "why_tests_cant": "quantifies over all column names and their number", "anchors": ["pkg/internal/generator/dialect/{postgres,mysql,spanner}/create_table.go:fprintCreateTableColumn"]}
{"id": "C79", "title": "Exactly which displayed statements are executed as displayed", "statement": "In a successful run of apply that opened the database, and whose statements are all accepted, the statements sent are the displayed ones if and only if each of them, with its semicolon, has no empty line, no line with two dashes, none ending in a carriage return, none of 64 KiB, no inner line ending with a semicolon, and no comment line is of 64 KiB. For Spanner, if and only if no line begins with two dashes and no inner line ends with a semicolon. Whatever the database answers, the runs of the other dialects consist of equal rounds under the same condition.", "quantifier": "all command lines, configurations, schemas, dialects and answers of the database", "why_tests_cant": "an equivalence over all statement texts, with lines of any length", "anchors": ["pkg/ddlctl/apply/ddlctl_apply.go:splitExec", "pkg/ddlctl/apply/ddlctl_apply.go:Apply", "pkg/internal/util/remove_comment.go:RemoveCommentsAndEmptyLines"]}
{"id": "C80", "title": "Generated tables say what was guessed or left out", "statement": "Every table generated from a Go file belongs to a struct and a comment group of the file. Its comments name each field left out because its tag asks for it, each column named after its field because the tag does not name it, each tag whose remark on the primary key is not understood, and the position and struct of a table named after its struct. Each such comment is printed as a comment of the generated text. If nothing was guessed or left out, the table has no comment that its author did not write.", "quantifier": "all syntax trees, settings, tag readers, orders of the sort and dialects", "why_tests_cant": "for every struct, every combination of tags and every position of the field", "anchors": ["pkg/internal/lang/go/parse.go:parseFile", "pkg/internal/generator/dialect/postgres/create_table.go:fprintCreateTable"]}
{"id": "C81", "title": "The file written by generate stands for the directory it was generated from", "statement": "After a successful generate from a directory, into a file that is not itself a Go source, diff and apply with the same dialect, language and tags do with the file written exactly what they do with the directory: the same output, the same questions and the same statements executed. In particular diff between the two prints nothing, and succeeds exactly if the generated text can be parsed.", "quantifier": "all disks, sources, destinations, options, databases and other arguments", "why_tests_cant": "an equality between whole runs of the commands, for all contents of the disk and all answers of the database", "anchors": ["pkg/ddlctl/generate/ddlctl_generate.go:Command", "pkg/ddlctl/diff/ddlctl_diff.go:resolve", "pkg/ddlctl/apply/ddlctl_apply.go:Command"]}
{"id": "C82", "title": "What a database is not asked for makes no difference", "statement": "Two PostgreSQL databases that differ only in the details of types (precision and scale), in what foreign keys refer to, in the conditions of CHECK constraints and in which tables are views are shown by the same text. So are two Spanner databases that differ only in the direction of the columns of keys and indexes, in parent tables, in foreign keys and in CHECK constraints. So every command does the same with both: show and diff print the same, and apply displays and executes the same statements and ends the same way, whatever schema is wanted.", "quantifier": "all databases, schemas, disks, command lines and answers of the database", "why_tests_cant": "an equality of whole runs for all pairs of databases that differ in four respects", "anchors": ["pkg/show/postgres/show_create_all_tables.go:ShowCreateAllTables", "pkg/show/spanner/show_create_all_tables.go:ShowCreateAllTables", "pkg/ddlctl/show/ddlctl_show.go:Show", "pkg/ddlctl/diff/ddlctl_diff.go:resolve"]}
{"id": "C83", "title": "What show prints stands for the database", "statement": "A successful show prints one text. If it is saved to a file, diff with the same dialect does with the file exactly what it does with the data source name, on either side, and apply does with the file as wanted schema exactly what it does with the data source name as wanted schema. In particular diff between the saved text and the database prints nothing and succeeds, if the text is read at all.", "quantifier": "all databases, disks, names, options and other arguments", "why_tests_cant": "an equality between whole runs, for all contents of the database and of the disk", "anchors": ["pkg/ddlctl/show/ddlctl_show.go:Command", "pkg/ddlctl/show/ddlctl_show.go:Show", "pkg/ddlctl/diff/ddlctl_diff.go:resolve"]}
{"id": "C84", "title": "Having no difference is symmetric and transitive", "statement": "If comparing one schema with another reports no difference, so does comparing them the other way round; two schemas that do not differ from a third do not differ from each other; and the verdict depends neither on the unstable sort of the library nor on the comments written. (False beyond conditions: a column or table described twice, DEFAULT without a value, a hidden computed column of CockroachDB, an option of a MySQL table.)", "quantifier": "all pairs and triples of schemas, all dialects", "why_tests_cant": "relations between results for all pairs and triples of schemas", "anchors": ["pkg/ddl/postgres/diff.go:Diff", "pkg/ddl/postgres/diff_create_table.go:DiffCreateTable", "pkg/ddl/cockroachdb/diff_create_table.go:DiffCreateTable", "pkg/ddl/mysql/diff_create_table.go:DiffCreateTable", "pkg/ddl/spanner/diff_create_table.go:DiffCreateTable"]}
{"id": "C85", "title": "The keys foreign keys refer to are in place between any two statements", "statement": "If in both schemas every foreign key refers to a primary key or unique key of its table, then after each statement of the difference every foreign key that is there still has the key it refers to, so a database that insists on these keys executes the whole difference. (False in general: a foreign key may be added before its key, and a key may be replaced or dropped while foreign keys refer to it.)", "quantifier": "all pairs of schemas satisfying the stated conditions, all prefixes of the difference, PostgreSQL, CockroachDB and MySQL", "why_tests_cant": "a condition on all intermediate states for all pairs of schemas", "anchors": ["pkg/ddl/postgres/diff.go:Diff", "pkg/ddl/postgres/diff_create_table.go:DiffCreateTable", "pkg/ddl/cockroachdb/diff_create_table.go:DiffCreateTable", "pkg/ddl/mysql/diff_create_table.go:DiffCreateTable"]}
{"id": "C86", "title": "Nothing is dropped that is still needed", "statement": "Executed by a database that refuses to drop a table or column as long as something else needs it (the statements are printed without CASCADE), the difference goes through and yields the wanted schema. (False in general: tables that go are dropped in the order of the old schema, so a table is dropped before a later one that refers to it.)", "quantifier": "all pairs of schemas satisfying the stated conditions, all dialects, all points between two statements", "why_tests_cant": "a condition on all intermediate states for all pairs of schemas", "anchors": ["pkg/ddl/postgres/diff.go:Diff", "pkg/ddl/mysql/diff.go:Diff", "pkg/ddl/cockroachdb/diff.go:Diff", "pkg/ddl/spanner/diff.go:Diff"]}
{"id": "C87", "title": "Every table of a MySQL database is asked for", "statement": "The show command for MySQL asks the server for the names of the tables of the current database and then, for each name, for exactly that table; what it prints are the answers one behind the other, and it prints nothing if any query is refused. (False for names with back quotes, which are put into the query as they are.)", "quantifier": "all databases with distinct names of tables without back quotes; all servers for refusals", "why_tests_cant": "all names and all numbers of tables", "anchors": ["pkg/show/mysql/show_create_all_tables.go:ShowCreateAllTables"]}
{"id": "C88", "title": "Migrations that cannot work", "statement": "Whatever the schemas are: a difference that removes a table together with an index made on it by CREATE INDEX is never executed to the end; a MySQL difference that removes or changes an index made by CREATE INDEX never is; a Spanner table that is dropped and created again has lost the indexes that do not change; a constraint that keeps its name while one of its columns goes is not there afterwards; an index that changes while one of its columns goes, a new index on a column that is new in an existing table, and a new table with a foreign key to such a column never come into being.", "quantifier": "all pairs of schemas of the kind named, all dialects named, all texts of differences and sorts", "why_tests_cant": "says that no schema of the kind is migrated, for infinitely many schemas", "anchors": ["pkg/ddl/postgres/diff.go:Diff", "pkg/ddl/mysql/diff.go:Diff", "pkg/ddl/spanner/diff_create_table.go:DiffCreateTable", "pkg/ddl/postgres/diff_create_table.go:DiffCreateTable"]}
{"id": "C89", "title": "A difference is exactly what the schemas ask for", "statement": "A statement is in the difference of two schemas if and only if the schemas ask for it: DROP and CREATE for tables and indexes that are on one side only, DROP and CREATE for an index or (Spanner) a table whose compared text changed, ADD and DROP for columns and constraints on one side only, and for each column, constraint, option and deletion policy on both sides the alteration that belongs to what differs. In particular nothing that differs in its compared text is left out. No difference is reported exactly when the schemas print the same or ask for nothing. Any two accepted texts are compared without error.", "quantifier": "all dialects, all pairs of schemas (constraint names of a new table distinct), all comments, all sorts of constraints", "why_tests_cant": "The tests compare single changes; the combinations of objects, attributes and changes of a schema are unbounded, and a forgotten combination shows only in its own test.", "anchors": ["pkg/ddl/postgres/diff.go:15-126", "pkg/ddl/postgres/diff_create_table.go:36-262", "pkg/ddl/cockroachdb/diff_create_table.go:37-312", "pkg/ddl/mysql/diff_create_table.go:37-356", "pkg/ddl/spanner/diff_create_table.go:35-303"]}
{"id": "C90", "title": "All of an accepted text counts", "statement": "A text whose last quoted literal is not closed is never accepted; so no text that ends outside of literals and comments is accepted with an additional quotation mark at its end. Every token of an accepted text counts: replacing one, or adding one, changes the result or makes the text rejected.", "quantifier": "all dialects, all texts without NUL (first part), all tokens (second part)", "why_tests_cant": "Every token may stand behind every text; tests append none.", "anchors": ["pkg/ddl/postgres/parser.go:75-103", "pkg/ddl/postgres/parser.go:200-263", "pkg/ddl/cockroachdb/parser.go:452-481", "pkg/ddl/mysql/parser.go:267", "pkg/ddl/spanner/parser.go:339", "pkg/ddl/cockroachdb/parser.go:202"]}
{"id": "C91", "title": "Comments are carried over", "statement": "Every line of an annotated comment group that asks for an index becomes the comment of exactly one generated index, in order, which carries the position of the first line with this text; every other line becomes a comment of the table, in order, without loss, and what else the table says stands behind them and is marked as a remark of the program (WARN, NOTE, ERROR). The comments of a column are remarks followed by the doc comment of its field, without lines that begin with the tag; the columns follow the order of the fields.", "quantifier": "every annotated group, struct, tag reader and settings", "why_tests_cant": "comments are arbitrary text, in any number and mixture", "anchors": ["pkg/internal/lang/go/parse.go:106-222"]}
{"id": "C92", "title": "The order of the catalogue does not matter", "statement": "Whatever the order in which PostgreSQL keeps its tables, show prints the same CREATE TABLE statements in the same order and the same CREATE INDEX statements, the latter in whatever order.", "quantifier": "every schema, every two databases with the same tables in any order", "why_tests_cant": "a test sees one order of the catalogue; there are factorially many", "anchors": ["pkg/show/postgres/show_create_all_tables.go:18-107"]}
{"id": "C93", "title": "A failed attempt to add something is final", "statement": "With PostgreSQL and CockroachDB, if the difference adds a column (or creates a table that the first attempt creates) and any statement of the first attempt fails, no later attempt succeeds: apply reports a failure although it retries. In particular, adding a column together with an index on it, or together with a table that refers to it, never ends well; nor does creating a table before the new table it refers to.", "quantifier": "every two schemas, every server that enforces dependencies, every number of retries", "why_tests_cant": "a test sees one migration; the claim is that no migration of the kind and no number of retries helps", "anchors": ["pkg/ddlctl/apply/ddlctl_apply.go:193-238", "pkg/ddl/postgres/diff.go:1-120"]}
