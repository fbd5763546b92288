{
 "claims": [
  {
   "property": "C01",
   "status": "proved",
   "theorems": [
    "C01_parsing_terminates"
   ],
   "note": "The Go loops are modelled with an iteration budget of one more than the number of remaining tokens; it is never exhausted."
  },
  {
   "property": "C02",
   "status": "partial",
   "theorems": [
    "C02_parsing_never_panics_partial",
    "C02_parsing_never_panics_refuted",
    "C02_default_type_refuted",
    "C02_unnamed_check_refuted",
    "C02_begins_with_unfinished_literal_refuted",
    "C02_or_refused",
    "C02_commands_do_not_crash_partial"
   ],
   "note": "False as stated: unterminated quotes (all dialects), DEFAULT/AS followed by a type name (postgres, cockroachdb) and two unnamed CHECKs (spanner) panic. Proved for all other texts. Every text that consists of an unfinished literal panics; every text that ends in one panics or is rejected. C02_commands_do_not_crash_partial carries the condition to the commands diff and apply."
  },
  {
   "property": "C03",
   "status": "proved",
   "theorems": [
    "C03_layout_between_tokens",
    "C03_layout_at_start",
    "C03_layout_at_end"
   ],
   "note": "A comment may not directly follow a minus sign (it would extend to ---)."
  },
  {
   "property": "C04",
   "status": "proved",
   "theorems": [
    "C04_keywords_case_insensitive",
    "C04_go_sort"
   ],
   "note": "Assumes the order in which sort.Slice leaves more than 12 constraints does not depend on keyword case. The assumption on the sort is discharged for the library's sort (GoSort.v)."
  },
  {
   "property": "C05",
   "status": "proved",
   "theorems": [
    "C05_tokenising_loses_nothing",
    "C05_nul_refuted",
    "C05_text_of_a_byte"
   ],
   "note": "For texts without NUL that do not end inside a quoted literal; non-ASCII bytes outside quotes are re-encoded (token_text). C05_text_of_a_byte: the text of a one-byte token (the UTF-8 form of the number of the byte above 127) determines the byte."
  },
  {
   "property": "C06",
   "status": "proved",
   "theorems": [
    "C06_only_creates"
   ],
   "note": ""
  },
  {
   "property": "C07",
   "status": "partial",
   "theorems": [
    "C07_constraints_uniquely_named_partial",
    "C07_constraints_uniquely_named_refuted"
   ],
   "note": "False for spanner CHECK constraints without a name; proved for all other texts and dialects."
  },
  {
   "property": "C08",
   "status": "partial",
   "theorems": [
    "C08_printed_schema_is_read_back_partial",
    "C08_printed_small_schema_is_read_back_partial",
    "C08_printing_loses_nothing_partial",
    "C08_foreign_key_with_action_refuted",
    "C08_check_refuted",
    "C08_mysql_action_is_lost_refuted",
    "C08_default_with_auto_increment_refuted",
    "C08_go_sort_partial",
    "C08_cockroach_methods_are_read_back_partial",
    "C08_cockroach_methods_extend_partial",
    "C08_cockroach_index_method_refuted",
    "C08_mysql_boolean_partial",
    "C08_mysql_boolean_refuted",
    "C08_go_sort_methods_partial",
    "C08_go_sort_boolean_partial"
   ],
   "note": "Proved in the four dialects for every schema satisfying the executable test `printable`. Outside of it are schemas that are not read back: foreign keys with an ON action and CHECK constraints (postgres, cockroachdb), the ON action of a MySQL foreign key is not printed, DEFAULT with AUTO_INCREMENT (MySQL). The assumption on the sort is discharged for the library's sort (GoSort.v). Beyond `printable`: CockroachDB tables whose indexes have methods (USING … WITH …) are read back, but CREATE INDEX with a method is not; a MySQL BOOLEAN is printed as TINYINT(1) and comes back as that type."
  },
  {
   "property": "C09",
   "status": "partial",
   "theorems": [
    "C09_normalising_is_idempotent_partial",
    "C09_column_check_refuted",
    "C09_column_foreign_key_with_action_refuted",
    "C09_generated_name_refuted",
    "C09_go_sort_partial",
    "C09_cockroach_methods_partial",
    "C09_mysql_boolean_partial"
   ],
   "note": "Proved for accepted texts whose schema is `printable`; three refutations show accepted texts whose printed form is rejected. The assumption on the sort is discharged for the library's sort (GoSort.v)."
  },
  {
   "property": "C10",
   "status": "proved",
   "theorems": [
    "C10_concatenation"
   ],
   "note": "The first text must not contain a NUL byte and not end inside a comment or quoted literal."
  },
  {
   "property": "C11",
   "status": "proved",
   "theorems": [
    "C11_schema_equals_itself",
    "C11_table_equals_itself"
   ],
   "note": "No hypotheses."
  },
  {
   "property": "C12",
   "status": "partial",
   "theorems": [
    "C12_pg_diff_reaches_target_partial",
    "C12_pg_dropped_table_with_index_refuted",
    "C12_pg_dropped_column_of_constraint_refuted",
    "C12_pg_index_method_refuted"
   ],
   "note": "False as stated (three witnesses). Proved for every pair of schemas that describe a catalogue and are reconcilable (Reconcile.v), i.e. that avoid the situations of the witnesses."
  },
  {
   "property": "C13",
   "status": "partial",
   "theorems": [
    "C13_no_difference_is_honest_partial",
    "C13_pg_index_method_refuted",
    "C13_cockroach_computed_column_refuted",
    "C13_mysql_default_literal_refuted",
    "C13_spanner_default_literal_refuted"
   ],
   "note": "False as stated (a witness for each dialect). Proved for comparable pairs (Honest.v), i.e. whose differences are visible in the compared texts."
  },
  {
   "property": "C14",
   "status": "partial",
   "theorems": [
    "C14_converges_partial",
    "C14_mysql_character_set_refuted"
   ],
   "note": "False as stated. Proved for reconcilable pairs and any schema text that describes the resulting catalogue."
  },
  {
   "property": "C15",
   "status": "proved",
   "theorems": [
    "C15_equal_table_untouched",
    "C15_equal_index_untouched",
    "C15_unchanged_objects_untouched",
    "C15_cockroach_moved_index_refuted"
   ],
   "note": "Equal trees are never mentioned; objects equal in the catalogue neither if names are written in the same style. A cockroachdb index that moves out of CREATE TABLE keeps its meaning and is mentioned (refuted variant)."
  },
  {
   "property": "C16",
   "status": "partial",
   "theorems": [
    "C16_drop_table_only_if_gone",
    "C16_drop_table_only_if_gone_partial",
    "C16_drop_column_only_if_gone",
    "C16_dropped_index_created_again",
    "C16_dropped_constraint_added_again",
    "C16_dropped_inner_index_created_again",
    "C16_spanner_table_dropped_refuted"
   ],
   "note": "Proved for postgres, cockroachdb and mysql, for tables, columns, indexes declared by CREATE INDEX or inside CREATE TABLE, and constraints; for spanner false for tables: a change of the primary key text drops the table."
  },
  {
   "property": "C17",
   "status": "partial",
   "theorems": [
    "C17_vanished_new_changed",
    "C17_order_within_table_partial",
    "C17_changed_constraint_dropped_late_refuted"
   ],
   "note": "The order of the phases is proved; within a table it holds for constraints that vanish, and is false for constraints that change."
  },
  {
   "property": "C18",
   "status": "proved",
   "theorems": [
    "C18_absent_before",
    "C18_both_absent",
    "C18_absent_after",
    "C18_absent_table_before",
    "C18_absent_table_after",
    "C18_two_absent_tables_refuted"
   ],
   "note": "For schemas and for single tables. Comparing two absent single tables panics (refuted variant)."
  },
  {
   "property": "C19",
   "status": "partial",
   "theorems": [
    "C19_diff_is_executable_partial",
    "C19_index_on_new_column_refuted",
    "C19_foreign_key_to_new_column_refuted",
    "C19_dropped_referenced_table_refuted",
    "C19_dropped_referenced_column_refuted",
    "C19_new_table_refers_to_later_one_refuted",
    "C19_mysql_index_on_new_column_refuted",
    "C19_cockroach_index_on_new_column_refuted",
    "C19_spanner_index_on_new_column_refuted",
    "C19_apply_in_order_partial"
   ],
   "note": "False as stated: the diff creates new indexes before it adds the columns they use, drops tables before the foreign keys that refer to them, and so on; the refuted theorems give witnesses. Proved for all four dialects and all pairs of schemas that are reconcilable (as for C12) and in_order (DbDep.v): executed with dependencies enforced (needs checked on creation, dropping a table or column drops what depends on it) the diff never fails and yields the target. Not represented: columns used by a CHECK; the unique key a foreign key refers to is the subject of C85. C19_apply_in_order_partial carries this through apply itself on PostgreSQL and CockroachDB."
  },
  {
   "property": "C20",
   "status": "partial",
   "theorems": [
    "C20_schemas_unchanged_partial",
    "C20_renamed_table_changed_refuted",
    "C20_single_table_partial",
    "C20_recreated_unchanged"
   ],
   "note": "Comparing schemas changes nothing; comparing single tables completes the schema of the new name in place. For single tables it is proved exactly what changes: only the name, only if it lacks a schema that the old one has."
  },
  {
   "property": "C21",
   "status": "proved",
   "theorems": [
    "C21_statement_is_delimited",
    "C21_comment_is_not_executed"
   ],
   "note": "A bare carriage return inside a comment is not a line break here."
  },
  {
   "property": "C22",
   "status": "proved",
   "theorems": [
    "C22_nothing_without_approval",
    "C22_conversation"
   ],
   "note": "Also opens no connection for execution. 'yes' may be followed by a carriage return. The whole order of what is displayed, asked, announced, sent and confirmed is described."
  },
  {
   "property": "C23",
   "status": "partial",
   "theorems": [
    "C23_executed_is_shown_partial",
    "C23_dashes_refuted"
   ],
   "note": "Proved for statements that arrive: no line with a comment mark, empty line, carriage return at a line end, line of 64 KiB or inner semicolon at a line end; with Spanner only no line that begins with a comment mark. C79 shows that this condition is exact. False for a literal with two dashes."
  },
  {
   "property": "C24",
   "status": "partial",
   "theorems": [
    "C24_success_is_honest_partial",
    "C24_dashes_refuted"
   ],
   "note": "Every text that was sent has an acceptable answer in the last attempt, for all inputs; these are the displayed statements exactly if their texts arrive (an equivalence), so it is false for a literal with two dashes."
  },
  {
   "property": "C25",
   "status": "proved",
   "theorems": [
    "C25_bounded_retries",
    "C25_gives_up"
   ],
   "note": "Relies on the retry package doing at most maxRetries+1 attempts (a dependency)."
  },
  {
   "property": "C26",
   "status": "partial",
   "theorems": [
    "C26_retry_succeeds_partial",
    "C26_postgres_refuted",
    "C26_mysql_drop_refuted"
   ],
   "note": "Proved for databases in which a statement that is done may be sent again; postgres (and MySQL for DROP) are not such databases."
  },
  {
   "property": "C27",
   "status": "proved",
   "theorems": [
    "C27_one_batch"
   ],
   "note": ""
  },
  {
   "property": "C28",
   "status": "proved",
   "theorems": [
    "C28_no_difference_no_effect"
   ],
   "note": ""
  },
  {
   "property": "C29",
   "status": "proved",
   "theorems": [
    "C29_bad_input_no_effect"
   ],
   "note": "A panic of the parser (C02) counts as an error."
  },
  {
   "property": "C30",
   "status": "partial",
   "theorems": [
    "C30_deterministic_partial",
    "C30_small_files_partial",
    "C30_same_line_refuted",
    "C30_go_partial",
    "C30_many_statements_refuted"
   ],
   "note": "False as stated: two annotated groups on one source line are emitted in map order (C30_same_line_refuted). Proved when no two statements of a file share a line, for any sort; and, for files with at most twelve statements (Go sorts these stably by insertion), when no two comment groups share a line. Files in a directory are read in the order of filepath.Walk, which is part of the input. With the library's sort (GoSort.v) the first holds without assumption on the sort; from thirteen statements on an index annotated in the first line of its comment and its table may change places with the order of the map (C30_many_statements_refuted)."
  },
  {
   "property": "C31",
   "status": "proved",
   "theorems": [
    "C31_commas",
    "C31_tables_are_complete",
    "C31_go_tables_are_complete"
   ],
   "note": "All three printers: the items in the parentheses (columns, primary key, constraints) are separated by exactly one comma, none after the last; the trailing options likewise; every generated table has a name (hence ends with ;) and columns. On the level of text: an item whose own text contains -- would hide its comma from the parser."
  },
  {
   "property": "C32",
   "status": "partial",
   "theorems": [
    "C32_comments_partial",
    "C32_line_comments_partial",
    "C32_block_comment_refuted",
    "C32_what_comments_leave",
    "C32_exactly"
   ],
   "note": "False for block comments of several lines (C32_block_comment_refuted). Proved when every comment is a single line, in particular when the annotations are // comments. C32_what_comments_leave describes the lines for all comments, and C32_exactly says exactly when comments stay comments: every further line of a comment of several lines is itself a comment line."
  },
  {
   "property": "C33",
   "status": "proved",
   "theorems": [
    "C33_rollback_restores",
    "C33_nested",
    "C33_failed_load",
    "C33_logging_refuted",
    "C33_load_takes_effect",
    "C33_logging_history"
   ],
   "note": "The configuration is restored, for any history in between. The loggers and the error constructor switched on by a load with debug or trace are not (C33_logging_refuted). C33_logging_history says exactly when they are on after any sequence of loads and rollbacks."
  },
  {
   "property": "C34",
   "status": "partial",
   "theorems": [
    "C34_single_index_partial",
    "C34_columns_shown_partial",
    "C34_two_indexes_refuted",
    "C34_storing_refuted"
   ],
   "note": "False: with several indexes each is shown with the columns of all, once per index (exact description: C34_columns_shown_partial); stored columns are shown as key columns. Proved for a table with one index without stored columns."
  },
  {
   "property": "C35",
   "status": "partial",
   "theorems": [
    "C35_mysql_diff_reaches_target_partial",
    "C35_mysql_dropped_index_refuted",
    "C35_mysql_character_set_refuted"
   ],
   "note": "As C12."
  },
  {
   "property": "C36",
   "status": "partial",
   "theorems": [
    "C36_cockroach_diff_reaches_target_partial",
    "C36_cockroach_moved_index_refuted",
    "C36_cockroach_computed_column_refuted"
   ],
   "note": "As C12."
  },
  {
   "property": "C37",
   "status": "partial",
   "theorems": [
    "C37_spanner_diff_reaches_target_partial",
    "C37_spanner_recreated_table_loses_index_refuted"
   ],
   "note": "As C12."
  },
  {
   "property": "C38",
   "status": "partial",
   "theorems": [
    "C38_lines_are_kept_partial",
    "C38_idempotent_partial",
    "C38_idempotent_refuted",
    "C38_long_line_refuted",
    "C38_white_space",
    "C38_trim_space",
    "C38_every_text",
    "C38_idempotent_exactly",
    "C38_removing_again_never_grows"
   ],
   "note": "False as stated: a line of 64 KiB ends the text, and two carriage returns at the end of a line are removed one at a time (refuted theorems). C38_every_text describes the result for every text without assumptions; C38_idempotent_exactly says exactly when a second removal makes no difference. C38_white_space and C38_trim_space say what the trimming of a line removes."
  },
  {
   "property": "C39",
   "status": "partial",
   "theorems": [
    "C39_prefix_lines",
    "C39_tail_line_partial",
    "C39_tail_refuted",
    "C39_exactly"
   ],
   "note": "Prefixed lines: proved as stated. Trailing empty lines: at most one is removed, so false for two (C39_tail_refuted). C39_exactly: an empty line remains exactly if there were two."
  },
  {
   "property": "C40",
   "status": "proved",
   "theorems": [
    "C40_quotes_make_no_difference"
   ],
   "note": "For schemas that describe a catalogue and are tidy (Tidy.v)."
  },
  {
   "property": "C41",
   "status": "proved",
   "theorems": [
    "C41_order_makes_no_difference"
   ],
   "note": "For schemas that describe a catalogue and are tidy (Tidy.v)."
  },
  {
   "property": "C42",
   "status": "partial",
   "theorems": [
    "C42_changed_index_recreated_partial",
    "C42_comma_in_name_refuted"
   ],
   "note": "Proved for names without blanks, commas and parentheses; false otherwise."
  },
  {
   "property": "C43",
   "status": "partial",
   "theorems": [
    "C43_statements_are_justified_partial",
    "C43_mysql_constraint_becomes_index_refuted",
    "C43_mysql_boolean_refuted"
   ],
   "note": "Proved unless a constraint is replaced by an in-table index of the same name (or vice versa), for which it is false. A MySQL column written BOOLEAN on one side and TINYINT(1) on the other is modified to what it is as soon as its table differs elsewhere (C43_mysql_boolean_refuted): justification is proved at the level of the compared type, not of the printed one."
  },
  {
   "property": "C44",
   "status": "partial",
   "theorems": [
    "C44_rename_comes_first_partial",
    "C44_renamed_table_reaches_target_partial",
    "C44_spanner_recreated_reaches_target",
    "C44_renamed_to_itself_refuted",
    "C44_spanner_renamed_table_dropped_refuted"
   ],
   "note": "Proved for postgres, cockroachdb and mysql, and for spanner if the table options agree; false otherwise. The renaming and what follows lead from the old table to the new one (a database of one table; mysql: within its schema). False if only one side writes the schema: the table is renamed to itself."
  },
  {
   "property": "C45",
   "status": "partial",
   "theorems": [
    "C45_no_panic_partial",
    "C45_no_tag_refuted",
    "C45_embedded_refuted",
    "C45_file_crashes_iff",
    "C45_tree_crashes_iff"
   ],
   "note": "False: a field without a tag and an embedded field panic. Proved when all fields have a name and a tag; C45_file_crashes_iff and C45_tree_crashes_iff say exactly when it panics: an annotated comment whose last struct has a field without tag, or an embedded field whose name is used."
  },
  {
   "property": "C46",
   "status": "partial",
   "theorems": [
    "C46_destination_partial",
    "C46_truncated_refuted",
    "C46_exactly"
   ],
   "note": "False: the destination is opened with truncation before anything is parsed. Proved: success means the destination holds the text; a destination that cannot be opened is untouched. C46_exactly: a failing command leaves the destination alone exactly if it could not open it or the destination was empty."
  },
  {
   "property": "C47",
   "status": "partial",
   "theorems": [
    "C47_statement_says_itself_partial",
    "C47_different_statements_differ_partial",
    "C47_difference_says_itself_partial",
    "C47_printed_difference_says_itself_partial",
    "C47_creation_says_itself_partial",
    "C47_removal_says_itself_partial",
    "C47_mysql_action_is_lost_refuted",
    "C47_missing_default_refuted",
    "C47_cockroach_methods_are_said",
    "C47_cockroach_methods_are_told_apart"
   ],
   "note": "Proved in the four dialects for statements satisfying the executable test `readable`, and for every statement of a difference of schemas that are `printable` (in MySQL with fit index names). False outside of it: the ON action of a MySQL foreign key is not printed; DEFAULT without a value gives `SET ;`. CREATE INDEX of CockroachDB with USING ... WITH ... in front of or behind the columns is proved to be said token by token (such statements are not `readable`)."
  },
  {
   "property": "C48",
   "status": "partial",
   "theorems": [
    "C48_apply_reaches_target_partial",
    "C48_serving",
    "C48_empty_line_of_literal_refuted",
    "C48_marked_line_of_literal_refuted",
    "C48_dropped_index_refuted",
    "C48_dashes_refuted",
    "C48_plain_schemas_partial",
    "C48_any_database_partial",
    "C48_with_dependencies_partial",
    "C48_strictly_serving",
    "C48_spanner_decided_by_the_statements"
   ],
   "note": "Proved in the four dialects for pairs that are `reconcilable` and `printable` with texts that arrive (the exact condition of C79). False outside of it: apply removes empty lines (and, for Spanner, lines starting with --) from literals and reports success; MySQL refuses DROP INDEX without ON; a literal with -- is cut. C48_with_dependencies_partial is the same on a server that enforces dependencies (StrictDb.v), for schemas that are in_order (C19); on Spanner apply ends well exactly if the statements work one after the other."
  },
  {
   "property": "C49",
   "status": "proved",
   "theorems": [
    "C49_file",
    "C49_tree",
    "C49_generate",
    "C49_generate_tree",
    "C49_several_names_refuted",
    "C49_type_group_refuted",
    "C49_block_comment_refuted",
    "C49_go_generate",
    "C49_go_generate_tree"
   ],
   "note": "The refutations are about sources outside the form assumed: of `A, B int` only A becomes a column; of a group of type declarations only the last struct is used; an annotation in a block comment takes the end of the comment with it. The _go_ theorems are about the library's sort."
  },
  {
   "property": "C50",
   "status": "partial",
   "theorems": [
    "C50_remarks_partial",
    "C50_any_word_refuted",
    "C50_unique_index_refuted",
    "C50_remark",
    "C50_note",
    "C50_exactly",
    "C50_only_notes_count"
   ],
   "note": "Proved for lines that do not begin with a word and a colon. False in general: in an annotated group any word in front of the colon is taken for the tag (`// See: index: below` creates an index). C50_exactly: a comment line contributes nothing exactly if no beginning of it is described by one of the four regular expressions (C75); C50_only_notes_count: two groups with the same notes ask for the same statements, for all groups and structs."
  },
  {
   "property": "C51",
   "status": "proved",
   "theorems": [
    "C51_line_order",
    "C51_huge_lines_refuted",
    "C51_go_line_order"
   ],
   "note": "The bound 10^9 on line numbers is needed, as the refutation shows."
  },
  {
   "property": "C52",
   "status": "partial",
   "theorems": [
    "C52_printed_text_is_read_partial",
    "C52_generated_file_is_read_partial",
    "C52_generated_tree_is_read_partial",
    "C52_two_options_refuted",
    "C52_comment_in_tag_refuted",
    "C52_quotation_in_name_refuted",
    "C52_go_file_is_read_partial",
    "C52_go_tree_is_read_partial"
   ],
   "note": "Proved for annotations that have the tokens of a statement of written_ok and leave no quotation or comment open. False beyond: two option annotations for mysql are joined by a comma its parser rejects, a comment in a tag hides the comma and the next column becomes part of a default value, quotation marks in column names are not doubled. The _go_ theorems assume nothing of the two sorts."
  },
  {
   "property": "C53",
   "status": "partial",
   "theorems": [
    "C53_written_schema_is_read_partial",
    "C53_written_small_schema_is_read_partial",
    "C53_same_meaning_same_schema_partial",
    "C53_check_in_last_column_refuted",
    "C53_unique_behind_check_is_lost_refuted",
    "C53_clause_behind_key_refuted",
    "C53_null_behind_default_refuted",
    "C53_foreign_key_name_refuted",
    "C53_go_sort_partial",
    "C53_cockroach_index_method_refuted",
    "C53_cockroach_difference_not_accepted_refuted"
   ],
   "note": "Proved for the forms of written_ok, which now contain column-level REFERENCES and CHECK. The forms outside of it are refuted: a column-level CHECK (or REFERENCES without action) that is not followed by another column is rejected, because the token behind it is skipped unseen - UNIQUE behind a CHECK is silently lost; `a INT PRIMARY KEY NOT NULL` is rejected; NULL behind a default value becomes part of the value; an unnamed foreign key is called `t_a ASC_fkey` in cockroachdb and spanner and its printed form is rejected. In CockroachDB an index method (USING) is only accepted inside of CREATE TABLE, where the token behind it is skipped; CREATE INDEX with a method is rejected, so a difference can contain a statement the tool itself does not accept. The assumption on the sort is discharged for the library's sort (GoSort.v)."
  },
  {
   "property": "C54",
   "status": "partial",
   "theorems": [
    "C54_shown_database_is_read_partial",
    "C54_columns_as_stored",
    "C54_no_difference_partial",
    "C54_descending_key_refuted",
    "C54_descending_index_refuted",
    "C54_parent_refuted",
    "C54_constraints_refuted",
    "C54_two_indexes_refuted",
    "C54_not_read_refuted"
   ],
   "note": "Proved for tables with an ascending primary key and at most one ascending index whose statements satisfy written_ok. False beyond: DESC, the parent table, foreign keys and CHECK constraints are not shown, several indexes are mixed up, and a nullable column with default and options, DATE, BYTES, FLOAT32 and ARRAY columns and names that are words of the lexer are shown in a form the parser rejects."
  },
  {
   "property": "C55",
   "status": "partial",
   "theorems": [
    "C55_shown_database_is_read_partial",
    "C55_columns_as_stored",
    "C55_no_difference_partial",
    "C55_foreign_key_refuted",
    "C55_check_refuted",
    "C55_precision_refuted",
    "C55_shared_name_refuted",
    "C55_index_named_like_constraint_refuted",
    "C55_view_refuted",
    "C55_unqualified_refuted",
    "C55_column_not_read_refuted",
    "C55_index_not_read_refuted",
    "C55_expression_index_refuted",
    "C55_tables_in_order",
    "C55_read_in_any_order_partial",
    "C55_any_catalogue_is_read_partial"
   ],
   "note": "Proved for every schema whose columns have types told by name and length, whose constraints are PRIMARY KEY and UNIQUE and whose statements can be expressed as text. Refuted: foreign keys are shown without REFERENCES and make the whole text unreadable, CHECK constraints and number precision are lost, views are shown as tables, a key gets the rules of a foreign key of the same name in another schema, an index named like a constraint is not shown, descending and partial indexes and several column types are not read, an index on an expression is read as one on other columns, and an unqualified table in the file is dropped and created.  C55_read_in_any_order_partial: the catalogue may keep the tables in any order; the indexes are then read in some order. C55_any_catalogue_is_read_partial gives that order: tables by name, indexes as the catalogue keeps them; C59 uses it."
  },
  {
   "property": "C56",
   "status": "partial",
   "theorems": [
    "C56_second_apply_does_nothing_partial",
    "C56_serving"
   ],
   "note": "Proved under the conditions of C48 for the first run and, for the second, that what the database shows describes the catalogue left behind in the same style of constraint columns and default values (tidy, same_style; the order of options for spanner). What the servers show in fact is C54, C55, C57 and C58."
  },
  {
   "property": "C57",
   "status": "partial",
   "theorems": [
    "C57_shown_database_is_read_partial",
    "C57_columns_as_stored",
    "C57_no_difference_partial",
    "C57_all_or_nothing",
    "C57_tables_rejected_refuted",
    "C57_keys_rejected_refuted"
   ],
   "note": "Proved for tables whose statements satisfy written_ok. Refuted: unsigned and blob columns, datetime with precision, generated columns, ON DELETE SET NULL, prefix, FULLTEXT and functional keys are shown in a form the parser rejects, so that a database with one such table can be neither compared nor changed."
  },
  {
   "property": "C58",
   "status": "partial",
   "theorems": [
    "C58_shown_database_is_read_partial",
    "C58_no_difference_partial",
    "C58_foreign_keys_refuted",
    "C58_tables_rejected_refuted"
   ],
   "note": "Proved for databases without foreign keys whose statements satisfy written_ok. Refuted: foreign keys are shown as ALTER TABLE statements, which the parser rejects whatever the tables are; DATE, BYTES and array columns, CHECK constraints and STORING indexes are rejected."
  },
  {
   "property": "C59",
   "status": "partial",
   "theorems": [
    "C59_sources_reach_database_partial",
    "C59_go_sources_reach_database_partial",
    "C59_plainly_convertible_partial"
   ],
   "note": "Proved as the composition of C49, C52, C53, one of C54/C55/C57/C58, and C48, under their conditions (written_ok for both schemas, convertible for the pair). The refutations of those properties show what fails beyond."
  },
  {
   "property": "C60",
   "status": "partial",
   "theorems": [
    "C60_diff_only_prints",
    "C60_saved_text_agrees",
    "C60_go_file_refuted"
   ],
   "note": "The first two parts hold without conditions. The third is false: resolve takes every file for SQL, so that no text beginning with a package clause is ever accepted."
  },
  {
   "property": "C61",
   "status": "partial",
   "theorems": [
    "C61_primary_key_comes_first",
    "C61_order_is_kept",
    "C61_small_case_is_the_library",
    "C61_order_refuted",
    "C61_reversing_is_exact"
   ],
   "note": "Nothing is lost and the primary key becomes the first in all cases. The order of the others is kept unless the primary key comes behind 12 to 48 others: then it is changed (refuted with 13 constraints), and with 16 and more it depends on the generator of the sort."
  },
  {
   "property": "C62",
   "status": "proved",
   "theorems": [
    "C62_sorts",
    "C62_few_are_inserted"
   ],
   "note": "For the model of sort.Slice in GoSort.v, with an arbitrary generator. The comparison of keys is a strict weak order; the general statement is slice_sort_sorts in GoSortSorts.v."
  },
  {
   "property": "C63",
   "status": "partial",
   "theorems": [
    "C63_get",
    "C63_unambiguous",
    "C63_every_value",
    "C63_field",
    "C63_generate",
    "C63_read_partial",
    "C63_apply_partial",
    "C63_lines_refuted",
    "C63_interpreted_refuted",
    "C63_escape_refuted",
    "C63_broken_value",
    "C63_stray_byte",
    "C63_no_value",
    "C63_characters_are_read_exactly"
   ],
   "note": "Proved for conventional tags, for a model of reflect.StructTag.Get, strconv.Unquote and the UTF-8 decoding they use (GoTag.v). C63_generate, C63_read_partial and C63_apply_partial are C49, C52 and C59 with the tag reader and both sorts replaced by the library's; C63_read_partial and C63_apply_partial keep the conditions of C52 and C59. Refuted for tags over several lines, tags in double quotation marks and values with an unknown escape. A byte that belongs to no character is replaced by U+FFFD (C63_stray_byte); a key without colon and quotation mark behind it ends the reading (C63_no_value). C63_characters_are_read_exactly: what is read as a character outside ASCII is its shortest UTF-8 form, and where none is read there is none."
  },
  {
   "property": "C64",
   "status": "partial",
   "theorems": [
    "C64_same_tag",
    "C64_sequence_partial",
    "C64_two_arguments",
    "C64_other_tag_refuted",
    "C64_no_comment",
    "C64_any_comment_refuted"
   ],
   "note": "Refuted as stated by a second generation with another DDL tag; proved for all sequences that agree in the tag, hence within every command. Tags are taken literally, not as regular expressions."
  },
  {
   "property": "C65",
   "status": "proved",
   "theorems": [
    "C65_configuration",
    "C65_nothing_without_approval",
    "C65_only_generate_writes",
    "C65_exit_code",
    "C65_words",
    "C65_other_language"
   ],
   "note": "The cli library is not in the sandbox; its lookup (flag, environment, default) is an assumption of the model written in Process.v."
  },
  {
   "property": "C66",
   "status": "partial",
   "theorems": [
    "C66_frame",
    "C66_again",
    "C66_text_partial",
    "C66_source_lost_refuted",
    "C66_source_in_directory_lost_refuted",
    "C66_reads_only",
    "C66_reads_all"
   ],
   "note": "Refuted when the destination is one of the sources; proved otherwise. The frame and the second run hold for all sources and destinations. Errors while writing are not modelled."
  },
  {
   "property": "C67",
   "status": "partial",
   "theorems": [
    "C67_dialect_needed_partial",
    "C67_arguments_counted_partial",
    "C67_show_prints_or_fails",
    "C67_missing_arguments_refuted",
    "C67_no_dialect_destroys_refuted",
    "C67_a_crash_is_the_parsers",
    "C67_spanner_comparison_refuted"
   ],
   "note": "Refuted for show and generate; proved: no output, no execution and a non-zero exit code without a dialect, and wrong argument counts of diff and apply; show prints one text or fails without output. C67_a_crash_is_the_parsers: for PostgreSQL, CockroachDB and MySQL diff and apply crash exactly if the parser panics on one of the texts; for Spanner the comparison of two accepted texts can crash."
  },
  {
   "property": "C68",
   "status": "partial",
   "theorems": [
    "C68_between_statements",
    "C68_states_partial",
    "C68_interrupted_partial",
    "C68_serving",
    "C68_changed_index_missing_refuted",
    "C68_changed_key_missing_refuted",
    "C68_recreated_table_missing_refuted",
    "C68_started_again_partial"
   ],
   "note": "C68_between_statements holds between any two statements of any difference of reconcilable schemas. For the run the conditions of C48 are needed (readable, texts that arrive). Refuted beyond that: a changed index or primary key is missing in the middle of a run; a Spanner table whose options change is missing between two statements of the batch. A run started again behind the interruption reaches the target when the shown schema is convertible."
  },
  {
   "property": "C69",
   "status": "proved",
   "theorems": [
    "C69_difference_survives",
    "C69_sent_is_displayed",
    "C69_dashes_are_never_sent",
    "C69_dashes_needed",
    "C69_quiet_sources",
    "C69_only_literals_matter",
    "C69_quiet_literals",
    "C69_quiet_sources_sent_as_displayed"
   ],
   "note": "The condition (plain_schema, Plain.v) is about the two schemas, not about the statements of the difference. The comment explaining a difference comes from an unmodelled library; its lines are assumed not to be longer than the two compared texts and 64 bytes (modest), which minus_plus_modest shows to be possible. The same is proved about the two source texts (quiet_source): only their quoted literals have to be looked at."
  },
  {
   "property": "C70",
   "status": "partial",
   "theorems": [
    "C70_row_reaches_last_partial",
    "C70_ways_agree_partial",
    "C70_there_and_back_partial",
    "C70_applied_and_reverted_partial",
    "C70_texts",
    "C70_mysql_option_stays_refuted",
    "C70_pg_index_method_depends_on_way_refuted"
   ],
   "note": "Proved for rows whose neighbours are `reconcilable` (the condition of C12). Refuted beyond it: an option of a MySQL table is set by the migration there and not removed by the migration back; whether the method of a Postgres index changes depends on whether the index was absent in between."
  },
  {
   "property": "C71",
   "status": "partial",
   "theorems": [
    "C71_linear_partial",
    "C71_bounded",
    "C71_one_side",
    "C71_described_twice_refuted"
   ],
   "note": "The linear bound holds when no object is described twice in the old schema; otherwise it is refuted by a table described three times, and C71_bounded gives the product bound for all schemas."
  },
  {
   "property": "C72",
   "status": "proved",
   "theorems": [
    "C72_pg_reaches_iff",
    "C72_cockroach_reaches_iff",
    "C72_pg_independent"
   ],
   "note": "PostgreSQL and CockroachDB. The test is `reconcilable` and `text_ok` (Reconcile.v), the condition of C12 and C36; the hypotheses are that both schemas describe catalogues, are tidy (what the parser yields) and have every CREATE INDEX behind its table (`placed`). For MySQL and Spanner the test is sufficient (C35, C37) but stricter than necessary."
  },
  {
   "property": "C73",
   "status": "proved",
   "theorems": [
    "C73_ordinary_difference_reaches_target",
    "C73_pg_reaches_iff_safe",
    "C73_cockroach_reaches_iff_safe",
    "C73_mysql_reaches_iff_safe",
    "C73_spanner_reaches_iff_safe",
    "C73_no_difference_iff_same",
    "C73_constraint_text_tells",
    "C73_type_text_tells",
    "C73_default_text_tells",
    "C73_apply_reaches_target"
   ],
   "note": "The tests ordinary, safe_change and noticed are in Ordinary.v; none of them mentions a text that Diff compares. ordinary includes printable (C08), because Diff first compares the printed texts."
  },
  {
   "property": "C74",
   "status": "proved",
   "theorems": [
    "C74_whole_statements",
    "C74_added",
    "C74_removed",
    "C74_reordered",
    "C74_printable",
    "C74_appended",
    "C74_appended_executable",
    "C74_continued_text",
    "C74_apply_sends_the_continuation",
    "C74_described_twice_refuted"
   ],
   "note": "When statements are both added and removed, the printed texts of the schemas must differ (Diff stops if they are equal); C74_printable shows that they do for schemas that are read back as printed (C08). That no object is described twice is needed (C74_described_twice_refuted)."
  },
  {
   "property": "C75",
   "status": "proved",
   "theorems": [
    "C75_tag",
    "C75_index",
    "C75_constraint",
    "C75_option",
    "C75_table",
    "C75_completed"
   ],
   "note": "The meaning of the expressions (Regular.v) is independent of the matcher of Generate.v. Which of several possible readings is taken (the preference of package regexp) is not part of the statement; C49 has it for the documented forms."
  },
  {
   "property": "C76",
   "status": "proved",
   "theorems": [
    "C76_growing_only_adds",
    "C76_shrinking_only_removes",
    "C76_growing_keeps_everything",
    "C76_shrinking_adds_nothing",
    "C76_growing_reaches_target",
    "C76_growing_is_executable",
    "C76_only_adds_iff_growing",
    "C76_only_removes_iff_shrinking",
    "C76_apply_sends_additions",
    "C76_apply_sends_removals",
    "C76_apply_loses_nothing",
    "C76_serving",
    "C76_spanner_new_parent_refuted"
   ],
   "note": "For tidy schemas (no object described twice). Whether the additions can be executed when dependencies are enforced needs grows_in_order (a new foreign key to a table created later is an ordering problem: C19). Without the premise on Spanner's options the statement is false: a table that gains a parent is dropped and created anew (C76_spanner_new_parent_refuted). For apply: of plain schemas (C69) every text sent is the text of an addition (removal), whatever the server answers."
  },
  {
   "property": "C77",
   "status": "partial",
   "theorems": [
    "C77_same_as_schemas_partial",
    "C77_not_valid_only_marks",
    "C77_spanner_same_text_refuted"
   ],
   "note": "False for spanner tables (trees, not read from a text) that print the same but whose options compare as different; proved otherwise."
  },
  {
   "property": "C78",
   "status": "proved",
   "theorems": [
    "C78_types_are_aligned"
   ],
   "note": ""
  },
  {
   "property": "C79",
   "status": "proved",
   "theorems": [
    "C79_executed_is_shown_exactly",
    "C79_rounds_exactly",
    "C79_clean_is_intact"
   ],
   "note": "An equivalence; the condition of C23 is shown to be one case of it."
  },
  {
   "property": "C80",
   "status": "proved",
   "theorems": [
    "C80_tables_explain",
    "C80_printed",
    "C80_generated",
    "C80_untyped_refuted",
    "C80_no_columns_refuted"
   ],
   "note": "For a tag name without special characters and tags written as raw strings. The refutations show what lies outside the statement: a field without a type is left out without a word, and the message made for a struct without typed fields is dropped together with its table, so nothing in the text points to it."
  },
  {
   "property": "C81",
   "status": "proved",
   "theorems": [
    "C81_stands_for",
    "C81_no_difference",
    "C81_single_file_refuted"
   ],
   "note": "About the model of the process and the disk (Process.v). The refutation shows why the statement is about directories: a single Go file is Go to generate and SQL to diff and apply."
  },
  {
   "property": "C82",
   "status": "proved",
   "theorems": [
    "C82_same_text",
    "C82_same_text_spanner",
    "C82_same_runs",
    "C82_checks_do_not_show",
    "C82_checks_count_by_name"
   ],
   "note": "About the models of the catalogues (ShowPg.v, Show.v), which keep what the queries do not ask for so that this can be said. A defect of the code made general: C54 and C55 have the single witnesses. The examples show the text of a foreign key exactly, and that the rules of a foreign key are told. CHECK constraints do not show at all, except that an index named like one is hidden."
  },
  {
   "property": "C83",
   "status": "proved",
   "theorems": [
    "C83_stands_for",
    "C83_no_difference"
   ],
   "note": "About the model of the process (Process.v); the database does not change between the commands. Whether the text shown is read is C54, C55, C57 and C58."
  },
  {
   "property": "C84",
   "status": "partial",
   "theorems": [
    "C84_symmetric_partial",
    "C84_transitive_partial",
    "C84_verdict_is_determined",
    "C84_column_twice_refuted",
    "C84_table_twice_refuted",
    "C84_empty_default_refuted",
    "C84_cockroach_hidden_column_refuted",
    "C84_mysql_option_refuted",
    "C84_not_transitive_refuted"
   ],
   "note": "Symmetric when the right schema describes nothing twice and gives a value to every DEFAULT, the left one has no hidden computed column (cockroachdb) and its table options are also given on the right (mysql); each of these is necessary, as the refutations show. Transitive for printable schemas (C08) that describe nothing twice, without hidden computed columns in the middle. The last part holds for all schemas."
  },
  {
   "property": "C85",
   "status": "partial",
   "theorems": [
    "C85_keys_are_in_place_partial",
    "C85_same_key_stays",
    "C85_same_index_stays",
    "C85_new_key_refuted",
    "C85_renamed_key_refuted",
    "C85_dropped_key_refuted",
    "C85_dropped_index_refuted",
    "C85_cockroach_new_key_refuted",
    "C85_mysql_new_key_refuted",
    "C85_index_at_the_end_refuted",
    "C85_new_index_is_there_first",
    "C85_added_key_finds_new_index",
    "C85_keys_are_in_time_partial",
    "C85_apply_partial",
    "C85_apply_index_at_the_end_refuted"
   ],
   "note": "False in general: the refuted theorems give pairs of schemas in which all keys are in place, whose difference adds a foreign key before its key, or drops a key a foreign key refers to. Proved for PostgreSQL, CockroachDB and MySQL under the conditions of C19 if every foreign key refers to a primary key, UNIQUE constraint or unique index that does not change, or to a constraint whose table comes or goes with it (keys_in_place, DbKeyed.v). Not covered by the proof: unique indexes that go; Spanner asks for no keys. C85_index_at_the_end_refuted: a new table that refers to a new unique index declared after it is created first. C85_new_index_is_there_first: under the conditions of C19 every index that is new is there when the first table is changed, and stays; so a foreign key added to a table finds a new unique index (C85_added_key_finds_new_index). C85_keys_are_in_time_partial: the main theorem under a weaker condition, which also allows foreign keys to a unique index that is new: from a table that was there, or from a new table declared after the index. Carried through apply: on a server that insists on the keys (KeyedServer.v) apply sends every statement once, ends well and reaches the wanted catalogue if keys_in_time holds (C85_apply_partial, not for Spanner); without that condition it fails on a schema whose unique index comes after the table that refers to it (C85_apply_index_at_the_end_refuted)."
  },
  {
   "property": "C86",
   "status": "partial",
   "theorems": [
    "C86_nothing_needed_is_dropped_partial",
    "C86_drop_order_is_exact",
    "C86_cycle_is_refused",
    "C86_dropped_pair_refuted",
    "C86_cycle_refuted",
    "C86_cockroach_dropped_pair_refuted",
    "C86_mysql_dropped_pair_refuted",
    "C86_spanner_dropped_pair_refuted",
    "C86_wrong_order_never_applied",
    "C86_what_is_tolerated_is_done",
    "C86_apply_partial",
    "C86_decided_by_the_order",
    "C86_spanner_decided_by_the_order",
    "C86_spanner_apply_partial"
   ],
   "note": "False in general: tables that go are dropped in the order in which the old schema declares them, so a table goes before a later one that refers to it (witnesses in all dialects); tables that refer to each other cannot be dropped in any order. Proved under the conditions of C19 and if no table that goes refers to one that goes earlier; under the conditions of C19 this condition is exact. C86_wrong_order_never_applied: on a server that refuses to drop what is needed (RestrictDb.v; not Spanner), such a migration never ends well, however often apply tries. C86_apply_partial: for PostgreSQL, CockroachDB and MySQL the conditions carry over to apply on such a server: one attempt, no refusal, the wanted catalogue. C86_decided_by_the_order: under the other conditions, apply on such a server ends well exactly if no table that goes refers to one that goes and is declared earlier. C86_spanner_decided_by_the_order: the same for Spanner, where the batch is refused as a whole. C86_spanner_apply_partial: in that order the Spanner server holds the wanted catalogue afterwards."
  },
  {
   "property": "C87",
   "status": "partial",
   "theorems": [
    "C87_every_table_is_asked_for_partial",
    "C87_refusal_is_reported",
    "C87_back_quote_refuted",
    "C87_other_table_refuted"
   ],
   "note": "The server's reading of a query is specified in MyServer.v (back-quoted names, white space, comments to the end of the line). Proved for distinct names without back quotes. False with back quotes: one such name and nothing is shown, or another table is shown in its place."
  },
  {
   "property": "C88",
   "status": "proved",
   "theorems": [
    "C88_table_with_index_cannot_go",
    "C88_nothing_can_be_left",
    "C88_mysql_index_cannot_change",
    "C88_spanner_recreated_table_loses_its_indexes",
    "C88_constraint_losing_a_column_is_lost",
    "C88_constraint_losing_a_column_is_missed",
    "C88_index_losing_a_column_cannot_change",
    "C88_index_on_new_column_cannot_come",
    "C88_reference_to_new_column_cannot_come"
   ],
   "note": "Negative statements about the code as it is: they generalise the witnesses of C12, C35 and C37 to all schemas of the kind. The first needs an old schema that can be created by a database that enforces dependencies; the last is about constraints that are not indexes, of a table whose text changes. Also: an index that changes while one of its columns goes (its DROP INDEX comes after the DROP COLUMN that took it along); a new index on, and a foreign key of a new table to, a column that is new in an existing table (created before the column is added), by a database that enforces dependencies."
  },
  {
   "property": "C89",
   "status": "proved",
   "theorems": [
    "C89_difference_is_exact",
    "C89_no_difference_is_exact",
    "C89_any_two_texts",
    "C89_tables_dropped",
    "C89_tables_created",
    "C89_columns_added"
   ],
   "note": "The relation `asked` (Answer.v) is written without any definition of the comparison; the compared texts are those of Ast.v (what they hide is the subject of C13). Distinct constraint names follow from C07 except for Spanner CHECK constraints without a name. Order and number of the statements are C17 and C71."
  },
  {
   "property": "C90",
   "status": "partial",
   "theorems": [
    "C90_unfinished_literal",
    "C90_quotation_mark_added",
    "C90_token_behind_index_refuted",
    "C90_index_ignores_refuted",
    "C90_after_nul_refuted",
    "C90_virtual_index_refuted"
   ],
   "note": "Proved: no text without NUL that ends inside a quoted literal is accepted. Refuted: the token behind the columns of CREATE INDEX is skipped without being looked at in every dialect, and whatever follows a NUL byte is lost; CockroachDB accepts a method behind the columns only with a further word that does not count."
  },
  {
   "property": "C91",
   "status": "proved",
   "theorems": [
    "C91_comments_are_carried_over"
   ],
   "note": "For every group whose reading succeeds (C45: exactly when it crashes). The order of the statements of a file is C30 and C51."
  },
  {
   "property": "C92",
   "status": "partial",
   "theorems": [
    "C92_tables",
    "C92_indexes",
    "C92_text",
    "C92_index_order_refuted",
    "C92_foreign_names_refuted",
    "C92_no_difference",
    "C92_lines_of_a_constraint"
   ],
   "note": "Proved if the tables of the schema have different names (PostgreSQL ensures it) and no two foreign keys of the server share a name, which PostgreSQL allows: the query joins the rules by constraint name only, and then the text does depend on the order (C92_foreign_names_refuted). The indexes are proved the same without any condition, but their order is that of the catalogue (C92_index_order_refuted). Order of rows without ORDER BY is modelled as the order of the catalogue.  C92_no_difference: diff and apply find nothing to do between two such servers, under the conditions of C55. A constraint is shown once for each foreign key of its name in the catalogue, with the rules of that key (C92_lines_of_a_constraint)."
  },
  {
   "property": "C93",
   "status": "proved",
   "theorems": [
    "C93_no_second_chance",
    "C93_no_second_chance_for_tables",
    "C93_doomed_for_good",
    "C93_index_on_new_column_never_comes",
    "C93_reference_to_new_column_never_comes",
    "C93_forward_reference_never_comes",
    "C93_what_works_is_done",
    "C93_decided_by_the_first_attempt",
    "C93_no_second_chance_to_drop_a_table",
    "C93_no_second_chance_to_drop_a_column",
    "C93_decided_by_the_statements"
   ],
   "note": "The server enforces the dependencies of DbDep.v and answers by its own text reader; schemas are tidy, printable, and their statements survive the way to the server (record migration). Conversely, statements that work one after the other are sent once and end well; for a migration that adds a column, apply ends well exactly then. The same holds for a migration that drops a table or a column."
  }
 ]
}
