{
 "claims": [
  {
   "property": "C01",
   "status": "proved",
   "theorems": [
    "C01_dry_run_and_export_change_nothing",
    "C01_export_reads_no_file"
   ],
   "note": ""
  },
  {
   "property": "C02",
   "status": "proved",
   "theorems": [
    "C02_dry_run_shows_what_apply_does"
   ],
   "note": ""
  },
  {
   "property": "C03",
   "status": "proved",
   "theorems": [
    "C03_apply_in_order_in_one_transaction"
   ],
   "note": ""
  },
  {
   "property": "C04",
   "status": "proved",
   "theorems": [
    "C04_all_or_nothing_at_every_crash_point",
    "C04_prefix_on_autocommit"
   ],
   "note": ""
  },
  {
   "property": "C07",
   "status": "proved",
   "theorems": [
    "C07_empty_plan_touches_nothing"
   ],
   "note": ""
  },
  {
   "property": "C08",
   "status": "proved",
   "theorems": [
    "C08_errors_leave_the_database_untouched"
   ],
   "note": ""
  },
  {
   "property": "C09",
   "status": "partial",
   "theorems": [
    "C09_success_without_commit_refuted",
    "C09_success_means_all_executed_partial"
   ],
   "note": "False as stated: the result of Commit is ignored. Proved instead: success implies every selected statement was accepted in one transaction and a commit attempted."
  },
  {
   "property": "C10",
   "status": "proved",
   "theorems": [
    "C10_export_content",
    "C10_export_reads_back"
   ],
   "note": ""
  },
  {
   "property": "C11",
   "status": "proved",
   "theorems": [
    "C11_text_is_split_faithfully",
    "C11_statements_parsed_in_order"
   ],
   "note": ""
  },
  {
   "property": "C12",
   "status": "partial",
   "theorems": [
    "C12_other_literals_stay_whole_partial",
    "C12_semicolon_in_literal_refuted",
    "C12_dashes_in_literal_refuted"
   ],
   "note": "Proved for literals without a semicolon and without a line that starts with two dashes; false for those: refuted."
  },
  {
   "property": "C13",
   "status": "partial",
   "theorems": [
    "C13_self_diff_is_empty_partial",
    "C13_mysql_check_refuted",
    "C13_mysql_inline_primary_key_refuted"
   ],
   "note": "Proved for schemas without MySQL CHECK clauses and with NOT NULL on inline primary keys; both exceptions are refuted by witnesses."
  },
  {
   "property": "C14",
   "status": "proved",
   "theorems": [
    "C14_drop_table_exactly_the_obsolete_tables",
    "C14_an_obsolete_table_is_only_dropped",
    "C14_an_unknown_table_is_left_alone"
   ],
   "note": ""
  },
  {
   "property": "C15",
   "status": "proved",
   "theorems": [
    "C15_drop_column_exactly_the_obsolete_columns",
    "C15_drop_column_except_sql_server"
   ],
   "note": ""
  },
  {
   "property": "C16",
   "status": "proved",
   "theorems": [
    "C16_add_column_exactly_the_new_columns",
    "C16_add_column_names_except_sql_server"
   ],
   "note": ""
  },
  {
   "property": "C17",
   "status": "proved",
   "theorems": [
    "C17_new_objects_use_the_users_text",
    "C17_new_table_is_created_by_its_own_statements"
   ],
   "note": ""
  },
  {
   "property": "C18",
   "status": "proved",
   "theorems": [
    "C18_indexes_exactly_as_needed"
   ],
   "note": ""
  },
  {
   "property": "C19",
   "status": "proved",
   "theorems": [
    "C19_foreign_keys_exactly_as_needed",
    "C19_foreign_keys_before_columns",
    "C19_foreign_keys_before_indexes"
   ],
   "note": ""
  },
  {
   "property": "C20",
   "status": "partial",
   "theorems": [
    "C20_foreign_key_target_refuted",
    "C20_foreign_key_actions_partial"
   ],
   "note": "False of the code for columns and targets; proved for the referential actions."
  },
  {
   "property": "C21",
   "status": "proved",
   "theorems": [
    "C21_views_exactly_as_needed"
   ],
   "note": ""
  },
  {
   "property": "C22",
   "status": "proved",
   "theorems": [
    "C22_triggers_exactly_as_needed"
   ],
   "note": ""
  },
  {
   "property": "C23",
   "status": "partial",
   "theorems": [
    "C23_trigger_is_dropped_refuted",
    "C23_obsolete_triggers_stay"
   ],
   "note": "False of the code: no plan drops an obsolete trigger (proved)."
  },
  {
   "property": "C24",
   "status": "proved",
   "theorems": [
    "C24_policies_exactly_as_needed"
   ],
   "note": ""
  },
  {
   "property": "C25",
   "status": "partial",
   "theorems": [
    "C25_policy_clause_refuted",
    "C25_policy_change_is_applied_partial"
   ],
   "note": "False when USING or WITH CHECK only gains parentheses; proved otherwise."
  },
  {
   "property": "C26",
   "status": "proved",
   "theorems": [
    "C26_tables_are_planned_independently",
    "C26_unrelated_changes_do_not_matter"
   ],
   "note": ""
  },
  {
   "property": "C27",
   "status": "partial",
   "theorems": [
    "C27_planning_never_crashes",
    "C27_option_without_value_refuted"
   ],
   "note": "Proved for inputs whose index options have values; the parser returns options without a value for USING BTREE, on which planning crashes."
  },
  {
   "property": "C28",
   "status": "partial",
   "theorems": [
    "C28_ill_formed_schemas_are_rejected",
    "C28_rejection_is_an_error_value",
    "C28_duplicate_trigger_refuted",
    "C28_duplicate_table_refuted"
   ],
   "note": "Proved for indexes, policies, foreign keys, views and their order; duplicate triggers and tables are accepted (refuted)."
  },
  {
   "property": "C46",
   "status": "partial",
   "theorems": [
    "C46_identity_removal_keeps_the_column_refuted",
    "C46_identity_removal_drops_the_column",
    "C46_identity_addition_refuted"
   ],
   "note": "False of the code."
  },
  {
   "property": "C47",
   "status": "proved",
   "theorems": [
    "C47_columns_changed_exactly_as_needed"
   ],
   "note": ""
  },
  {
   "property": "C48",
   "status": "proved",
   "theorems": [
    "C48_primary_key_exactly_as_needed"
   ],
   "note": ""
  },
  {
   "property": "C05",
   "status": "proved",
   "theorems": [
    "C05_skip_drop_sends_no_removal",
    "C05_removals_are_shown_as_skipped"
   ],
   "note": ""
  },
  {
   "property": "C06",
   "status": "partial",
   "theorems": [
    "C06_creation_skipped_refuted",
    "C06_harmless_statements_are_executed_partial",
    "C06_harmless_statements_are_selected_partial"
   ],
   "note": "False when a user string contains DROP; proved for all other statements."
  },
  {
   "property": "C49",
   "status": "proved",
   "theorems": [
    "C49_every_statement_is_the_sql_of_its_operation"
   ],
   "note": ""
  },
  {
   "property": "C50",
   "status": "partial",
   "theorems": [
    "C50_mysql_keeps_partial",
    "C50_postgres_keeps_partial",
    "C50_sql_server_keeps_partial",
    "C50_default_null_refuted",
    "C50_default_lost_refuted",
    "C50_changed_index_refuted"
   ],
   "note": "Proved: what is kept after any of the statements let through (SQL Server: everything; PostgreSQL: everything if no DEFAULT NULL is written, views and triggers by name; MySQL: everything but the definitions of columns, views by name). False beyond: refuted."
  },
  {
   "property": "C31",
   "status": "proved",
   "theorems": [
    "C31_one_run",
    "C31_column_order_converges",
    "C31_one_run_reaches_the_order_refuted"
   ],
   "note": "Columns are tracked by name through every statement of the plan, with MySQL position semantics; between runs everything else the database reports is arbitrary. The refutation shows one run is not always enough."
  },
  {
   "property": "C29",
   "status": "partial",
   "theorems": [
    "C29_one_run_reaches_the_schema_partial",
    "C29_nothing_to_do_when_reached_partial",
    "C29_primary_key_clause_is_never_settled_refuted",
    "C29_second_index_option_is_never_settled_refuted",
    "C29_added_foreign_key_is_never_reached_refuted",
    "C29_leaving_the_primary_key_takes_two_runs_refuted"
   ],
   "note": "False for all well-formed pairs (four refutations); proved for the schemas and differences described by mysql_schema and convertible."
  },
  {
   "property": "C32",
   "status": "partial",
   "theorems": [
    "C32_autoincrement_columns_stay_keyed_partial",
    "C32_primary_key_change_fails_refuted"
   ],
   "note": "Proved for every prefix of the plan under the conditions of C29; false when an AUTO_INCREMENT column moves from one key to a new one."
  },
  {
   "property": "C33",
   "status": "partial",
   "theorems": [
    "C33_old_definition_is_restored_refuted"
   ],
   "note": "False of the code: refuted."
  },
  {
   "property": "C36",
   "status": "partial",
   "theorems": [
    "C36_quoted_names_read_back_partial",
    "C36_table_names_read_back_partial",
    "C36_quotes_in_names_refuted"
   ],
   "note": "Exact condition: the name does not contain the closing quote. False otherwise."
  },
  {
   "property": "C37",
   "status": "partial",
   "theorems": [
    "C37_string_defaults_read_back_partial",
    "C37_quotes_in_defaults_refuted",
    "C37_backslashes_in_defaults_refuted"
   ],
   "note": "Exact condition: neither quote nor backslash in the string. False otherwise."
  },
  {
   "property": "C38",
   "status": "partial",
   "theorems": [
    "C38_integer_defaults_keep_their_value_partial",
    "C38_decimal_defaults_keep_their_value_partial",
    "C38_large_integers_refuted",
    "C38_small_decimals_refuted"
   ],
   "note": "Integers of 64 bits; decimals below 2^32 with at most six decimals. False beyond 64 bits and beyond six decimals."
  },
  {
   "property": "C39",
   "status": "partial",
   "theorems": [
    "C39_tokenizer_terminates",
    "C39_each_call_consumes",
    "C39_no_other_crash_partial",
    "C39_bare_comment_crashes_refuted"
   ],
   "note": "Termination and progress are proved for every input. The tokenizer crashes on a MySQL-only comment holding nothing but a version number, and on no other input."
  },
  {
   "property": "C40",
   "status": "proved",
   "theorems": [
    "C40_letter_case"
   ],
   "note": "Stronger: whole texts that differ only in letter case have the same kinds of tokens."
  },
  {
   "property": "C41",
   "status": "proved",
   "theorems": [
    "C41_formatted_strings_read_back"
   ],
   "note": "All byte strings, all dialects."
  },
  {
   "property": "C51",
   "status": "proved",
   "theorems": [
    "C51_tokens_are_those_of_the_grammar"
   ],
   "note": "Both directions, all inputs."
  },
  {
   "property": "C52",
   "status": "partial",
   "theorems": [
    "C52_formatted_names_read_back_partial",
    "C52_formatted_names_postgres_partial",
    "C52_formatted_names_postgres_refuted",
    "C52_dual_refuted"
   ],
   "note": "Proved for MySQL, SQL Server and SQLite except for spellings of dual; exact condition on PostgreSQL, where backticks are not read."
  },
  {
   "property": "C53",
   "status": "partial",
   "theorems": [
    "C53_bit_defaults_read_back_partial",
    "C53_bit_strings_refuted"
   ],
   "note": "Exact condition: a single bit."
  },
  {
   "property": "C34",
   "status": "partial",
   "theorems": [
    "C34_aliases_change_nothing_partial",
    "C34_decimal_refuted"
   ],
   "note": "Proved for the aliases the planner knows, every dialect. False for DECIMAL/NUMERIC. Letter case: type words are keywords, see C40."
  },
  {
   "property": "C35",
   "status": "partial",
   "theorems": [
    "C35_type_changes_name_the_type_partial",
    "C35_time_zone_refuted",
    "C35_unnoticed_changes_refuted",
    "C35_time_zone_change_unnoticed_refuted"
   ],
   "note": "Exact condition: no time zone. Changes of time zone or scale, and of a length only one side has, are not noticed."
  },
  {
   "property": "C42",
   "status": "partial",
   "theorems": [
    "C42_url_denotes_the_configuration_partial",
    "C42_space_in_password_refuted",
    "C42_question_mark_in_database_refuted",
    "C42_socket_refuted"
   ],
   "note": "Exact condition: no space in user and password, given a plain host and database name and no socket. False otherwise."
  },
  {
   "property": "C43",
   "status": "partial",
   "theorems": [
    "C43_binary_collation_partial",
    "C43_character_sets_cut_refuted"
   ],
   "note": "Exact condition: the name does not start with a letter of \"charset=\"."
  },
  {
   "property": "C44",
   "status": "partial",
   "theorems": [
    "C44_one_statement_per_object_partial",
    "C44_two_indexes_refuted"
   ],
   "note": "Exact condition: at most one secondary index."
  },
  {
   "property": "C45",
   "status": "partial",
   "theorems": [
    "C45_postgres_names_partial",
    "C45_other_names",
    "C45_dotted_schema_refuted",
    "C45_sql_server_schemas_refuted",
    "C45_view_schemas_refuted"
   ],
   "note": "As stated for names without a dot in the schema. Beyond the statement: SQL Server schemas and view schemas are ignored."
  },
  {
   "property": "C54",
   "status": "proved",
   "theorems": [
    "C54_export_splits_into_objects"
   ],
   "note": ""
  },
  {
   "property": "C55",
   "status": "partial",
   "theorems": [
    "C55_columns_are_exported_partial",
    "C55_same_name_in_two_schemas_refuted",
    "C55_two_checks_refuted",
    "C55_composite_unique_refuted"
   ],
   "note": "Proved for tables whose name occurs in one schema only and whose columns have at most one check and one unique constraint."
  },
  {
   "property": "C56",
   "status": "partial",
   "theorems": [
    "C56_primary_key_is_exported_partial",
    "C56_no_primary_key_is_invented",
    "C56_same_name_in_two_schemas_refuted"
   ],
   "note": "Proved when constraint names are unique in the database."
  },
  {
   "property": "C57",
   "status": "partial",
   "theorems": [
    "C57_foreign_keys_are_exported_partial",
    "C57_composite_key_refuted",
    "C57_same_name_on_two_tables_refuted"
   ],
   "note": "Proved for single-column keys with unique names."
  },
  {
   "property": "C58",
   "status": "partial",
   "theorems": [
    "C58_indexes_are_exported",
    "C58_index_named_pkey_refuted",
    "C58_named_primary_key_refuted"
   ],
   "note": "Which indexes are exported is decided by the suffix _pkey of the name: proved exactly."
  },
  {
   "property": "C59",
   "status": "partial",
   "theorems": [
    "C59_trigger_is_one_statement_partial",
    "C59_compound_body_refuted"
   ],
   "note": "Exact condition: no semicolon in the body."
  },
  {
   "property": "C60",
   "status": "partial",
   "theorems": [
    "C60_tables_are_exported_partial",
    "C60_indexes_are_not_exported_refuted",
    "C60_similar_names_refuted"
   ],
   "note": "Proved for tables whose name does not match LIKE sqlite_%."
  },
  {
   "property": "C61",
   "status": "partial",
   "theorems": [
    "C61_views_are_exported_partial",
    "C61_blanks_in_literals_refuted",
    "C61_line_breaks_refuted",
    "C61_same_name_in_two_schemas_refuted"
   ],
   "note": "Proved for view names that occur once and definitions whose words are separated by spaces or indented line breaks."
  },
  {
   "property": "C62",
   "status": "partial",
   "theorems": [
    "C62_lengths_are_exported_partial",
    "C62_other_types_refuted"
   ],
   "note": "Four types only."
  },
  {
   "property": "C63",
   "status": "partial",
   "theorems": [
    "C63_export_is_deterministic_partial",
    "C63_export_order_refuted"
   ],
   "note": "With at most one secondary index."
  },
  {
   "property": "C64",
   "status": "partial",
   "theorems": [
    "C64_check_names_are_kept_partial",
    "C64_other_names_refuted"
   ],
   "note": "Exact condition: a plain name that is no keyword."
  },
  {
   "property": "C30",
   "status": "partial",
   "theorems": [
    "C30_one_run_reaches_the_schema_partial",
    "C30_nothing_to_do_when_reached_partial",
    "C30_convertible_is_testable",
    "C30_identity_without_not_null_refuted",
    "C30_identity_for_default_refuted",
    "C30_added_unique_is_ignored_refuted",
    "C30_unique_cannot_be_removed_refuted",
    "C30_export_of_unique_column_cannot_be_applied_refuted",
    "C30_composite_foreign_key_is_dropped_repeatedly_refuted",
    "C30_timestamptz_is_never_settled_refuted",
    "C30_type_changes_are_ignored_refuted",
    "C30_check_outside_public_refuted",
    "C30_references_of_added_column_is_lost_refuted"
   ],
   "note": "False for all well-formed pairs (ten refutations); proved for the schemas, databases and differences described by pg_schema, database_ok and pg_convertible."
  },
  {
   "property": "C65",
   "status": "partial",
   "theorems": [
    "C65_parser_halts",
    "C65_crashes_only_here_partial",
    "C65_replication_refuted",
    "C65_cast_of_nothing_refuted"
   ],
   "note": "Termination and absence of table or value errors proved for all texts; crashes characterised and refuted."
  },
  {
   "property": "C66",
   "status": "proved",
   "theorems": [
    "C66_no_word_is_skipped"
   ],
   "note": ""
  },
  {
   "property": "C67",
   "status": "proved",
   "theorems": [
    "C67_layout_does_not_matter"
   ],
   "note": ""
  },
  {
   "property": "C68",
   "status": "partial",
   "theorems": [
    "C68_added_columns_have_their_defaults_partial",
    "C68_now_refuted",
    "C68_getdate_refuted",
    "C68_boolean_refuted"
   ],
   "note": "Proved for columns added on MySQL whose definitions SHOW CREATE TABLE has the words for (SpecWordsMysql). False beyond: three refutations. C37, C38 and C53 prove the defaults of other statements."
  },
  {
   "property": "C69",
   "status": "partial",
   "theorems": [
    "C69_same_words_nothing_to_do_partial",
    "C69_unquoted_table_refuted",
    "C69_column_case_refuted"
   ],
   "note": "Proved for two files with the same words: quoting, layout, comments and letter case of keywords do not count. False for letter case of names: refuted."
  },
  {
   "property": "C70",
   "status": "partial",
   "theorems": [
    "C70_changed_index_is_recreated_partial",
    "C70_index_method_refuted",
    "C70_prefix_length_refuted",
    "C70_clustering_refuted"
   ],
   "note": "Proved for columns, order, uniqueness, predicate, included columns and options. False for method, prefix lengths and clustering: refuted."
  },
  {
   "property": "C71",
   "status": "partial",
   "theorems": [
    "C71_added_foreign_keys_have_their_words_partial",
    "C71_schema_lost_refuted",
    "C71_other_schema_unnoticed_refuted"
   ],
   "note": "Proved on MySQL. False on PostgreSQL and SQL Server: refuted."
  },
  {
   "property": "C72",
   "status": "partial",
   "theorems": [
    "C72_cast_in_view_refuted",
    "C72_dual_refuted",
    "C72_names_in_check_refuted"
   ],
   "note": "False: refuted."
  },
  {
   "property": "C73",
   "status": "partial",
   "theorems": [
    "C73_added_columns_have_their_words_partial",
    "C73_set_members_refuted",
    "C73_quotes_in_enum_refuted",
    "C73_zerofill_refuted"
   ],
   "note": "Proved for columns added on MySQL whose definitions SHOW CREATE TABLE has the words for. False beyond: refuted. C34, C35 and C49 prove the types that are planned."
  },
  {
   "property": "C74",
   "status": "partial",
   "theorems": [
    "C74_changed_column_is_noticed_partial",
    "C74_comment_refuted",
    "C74_sqlite_refuted",
    "C74_sql_server_refuted",
    "C74_table_options_refuted"
   ],
   "note": "Proved for the differences of SpecNoticed. False beyond: refuted."
  },
  {
   "property": "C75",
   "status": "partial",
   "theorems": [
    "C75_postgres_files_are_read_partial",
    "C75_mysql_files_are_read_partial",
    "C75_sql_server_files_are_read_partial",
    "C75_valid_files_refuted",
    "C75_semicolon_in_comment_refuted"
   ],
   "note": "Proved for every file with the words of an export covered by C77, C80 or C85. False beyond: refuted."
  },
  {
   "property": "C76",
   "status": "partial",
   "theorems": [
    "C76_mysql_statements_run_partial",
    "C76_postgres_statements_run_partial",
    "C76_sql_server_statements_run_partial",
    "C76_sqlite_index_refuted",
    "C76_sqlite_primary_key_refuted",
    "C76_sql_server_primary_key_refuted",
    "C76_index_in_schema_refuted"
   ],
   "note": "Proved under the conditions of C29, C30 and C88 on the ideal databases. False beyond: refuted."
  },
  {
   "property": "C77",
   "status": "partial",
   "theorems": [
    "C77_export_is_read_back_partial",
    "C77_texts_are_not_seen",
    "C77_types_refuted",
    "C77_defaults_refuted",
    "C77_indexes_refuted",
    "C77_set_default_refuted",
    "C77_index_method_refuted"
   ],
   "note": "Proved for the databases of SpecShown (database_readable) through exporter, tokenizer, LR parser and schema parser; false beyond: refutations."
  },
  {
   "property": "C78",
   "status": "partial",
   "theorems": [
    "C78_own_export_changes_nothing_partial",
    "C78_policy_in_schema_refuted",
    "C78_composite_key_refuted"
   ],
   "note": "Proved for the databases of SpecShown; false beyond: refutations."
  },
  {
   "property": "C79",
   "status": "partial",
   "theorems": [
    "C79_plan_is_made_for_the_database_partial",
    "C79_file_reaches_the_database_partial",
    "C79_next_run_is_empty_partial"
   ],
   "note": "From the texts on, for the databases of SpecShown and the schemas of C30; C30 and C77 refute the rest."
  },
  {
   "property": "C80",
   "status": "partial",
   "theorems": [
    "C80_mysql_export_is_read_back_partial",
    "C80_tables_refuted",
    "C80_names_refuted",
    "C80_quoted_names_refuted",
    "C80_view_of_other_database_refuted",
    "C80_unread_refuted"
   ],
   "note": "Proved for the databases of SpecShownMysql (my_readable) through exporter, tokenizer, LR parser and schema parser; false beyond: refutations."
  },
  {
   "property": "C81",
   "status": "partial",
   "theorems": [
    "C81_own_mysql_export_changes_nothing_partial"
   ],
   "note": "Proved for the databases of SpecShownMysql; C80 refutes reading the others at all."
  },
  {
   "property": "C82",
   "status": "partial",
   "theorems": [
    "C82_mysql_plan_is_made_for_the_database_partial",
    "C82_file_reaches_the_mysql_database_partial",
    "C82_next_mysql_run_is_empty_partial"
   ],
   "note": "From the texts on, for the databases of SpecShownMysql and the schemas of C29; C29 and C80 refute the rest."
  },
  {
   "property": "C83",
   "status": "partial",
   "theorems": [
    "C83_own_sqlite_export_changes_nothing_partial",
    "C83_tables_refuted"
   ],
   "note": "Proved for every catalogue the tables and views of which sqldef reads and the tables of which are settled; false beyond: refutations."
  },
  {
   "property": "C84",
   "status": "partial",
   "theorems": [
    "C84_file_reaches_the_sqlite_database_partial",
    "C84_next_sqlite_run_is_empty_partial",
    "C84_index_refuted",
    "C84_trigger_refuted",
    "C84_table_to_view_refuted"
   ],
   "note": "From the texts on, for files of tables and views; tables are created and dropped but do not change. False for indexes, triggers and a table that becomes a view: refutations."
  },
  {
   "property": "C85",
   "status": "partial",
   "theorems": [
    "C85_sql_server_export_is_read_back_partial",
    "C85_columns_refuted",
    "C85_expressions_refuted",
    "C85_modules_refuted",
    "C85_lines_of_views_refuted"
   ],
   "note": "Proved for the databases of SpecShownMssql (mq_readable) and every map order, through exporter, tokenizer, LR parser and schema parser; false beyond: refutations, also C44."
  },
  {
   "property": "C86",
   "status": "partial",
   "theorems": [
    "C86_own_sql_server_export_changes_nothing_partial"
   ],
   "note": "Proved for the databases of SpecShownMssql and any two exports; C85 refutes reading the others at all."
  },
  {
   "property": "C87",
   "status": "partial",
   "theorems": [
    "C87_sql_server_plan_is_made_for_the_database_partial",
    "C87_file_reaches_the_sql_server_database_partial",
    "C87_next_sql_server_run_is_empty_partial",
    "C87_unseen_differences_refuted",
    "C87_foreign_key_of_two_columns_refuted"
   ],
   "note": "From the texts on: the plan is the one for the definitions of the database and reaches the schema of the file under the conditions of C85 and C88; false beyond: refutations."
  },
  {
   "property": "C88",
   "status": "partial",
   "theorems": [
    "C88_one_run_reaches_the_schema_on_sql_server_partial",
    "C88_nothing_to_do_when_reached_partial",
    "C88_conditions_are_testable",
    "C88_unnamed_primary_key_comes_and_goes_refuted",
    "C88_renamed_primary_key_is_lost_refuted",
    "C88_rejected_changes_refuted",
    "C88_ignored_changes_refuted",
    "C88_identity_takes_the_column_with_it_refuted",
    "C88_never_settled_refuted",
    "C88_index_named_like_a_foreign_key_stays_refuted"
   ],
   "note": "Proved on the ideal server of SpecMssql for the pairs that SpecConvergeMs describes (types and identities agree, no primary key changed or renamed, conditions as the server keeps them, no obsolete triggers); false beyond: refutations."
  },
  {
   "property": "C89",
   "status": "partial",
   "theorems": [
    "C89_planned_in_the_words_of_mysql_partial",
    "C89_definitions_are_the_table_partial",
    "C89_columns_refuted",
    "C89_keys_refuted"
   ],
   "note": "Proved for every plan and every definition of SpecShownMysql that has no SET values, no quotes, backslashes or control characters in texts, at most one default bit and no comment or key option; false beyond: refutations."
  },
  {
   "property": "C90",
   "status": "partial",
   "theorems": [
    "C90_opened_only_when_named",
    "C90_server_and_options_partial",
    "C90_sqlite_file_and_options",
    "C90_same_words_same_run",
    "C90_file_called_as_the_host_refuted",
    "C90_wide_port_refuted",
    "C90_lone_password_option_refuted"
   ],
   "note": "go-flags is modelled from its documentation. What is opened and run is exact for every line; the server is the one named unless a MySQL socket is given, the port needs 64 bits, the host is unusual, or (PostgreSQL) the exceptions of C42 hold or a file is called as the host; false beyond: refutations."
  },
  {
   "property": "C91",
   "status": "proved",
   "theorems": [
    "C91_dry_run_or_export_anywhere",
    "C91_skip_drop_anywhere"
   ],
   "note": "For every argument list."
  },
  {
   "property": "C92",
   "status": "proved",
   "theorems": [
    "C92_prompt_needs_a_file"
   ],
   "note": "For every line that asks for the prompt."
  },
  {
   "property": "C93",
   "status": "partial",
   "theorems": [
    "C93_sqlserver_url_partial",
    "C93_instance_refuted"
   ],
   "note": "For hosts of letters, digits, dashes, dots and underscores; every user, password and database."
  },
  {
   "property": "C94",
   "status": "proved",
   "theorems": [
    "C94_definitions_come_from_the_file"
   ],
   "note": "For every dialect and every two schemas."
  },
  {
   "property": "C95",
   "status": "partial",
   "theorems": [
    "C95_sql_server_catalogue_is_read_partial",
    "C95_plan_is_made_for_the_catalogue_partial",
    "C95_file_reaches_the_database_partial",
    "C95_next_run_is_empty_partial",
    "C95_order_of_key_columns_refuted",
    "C95_two_checks_refuted",
    "C95_check_of_a_table_refuted",
    "C95_schema_of_references_refuted",
    "C95_stops_refuted"
   ],
   "note": "Proved for the databases of SpecShownMssql and every order of the rows, up to the order of lists; runs for keys of one column and under the conditions of C88; false beyond: refutations."
  },
  {
   "property": "C96",
   "status": "partial",
   "theorems": [
    "C96_two_runs_of_mysqldef_partial",
    "C96_two_runs_of_psqldef_partial",
    "C96_two_runs_of_mssqldef_partial",
    "C96_two_runs_of_sqlite3def_partial"
   ],
   "note": "Under the conditions of C79, C82, C84 and C87 on the database and the file; the server is any function that does on the texts of the plan what their effects say; begin and commit succeed (C03, C04 otherwise)."
  },
  {
   "property": "C97",
   "status": "partial",
   "theorems": [
    "C97_added_index_keeps_its_word_partial",
    "C97_added_key_keeps_its_word_partial",
    "C97_silent_index_becomes_clustered_refuted",
    "C97_silent_key_becomes_nonclustered_refuted",
    "C97_changed_word_is_ignored_refuted"
   ],
   "note": "Proved: the statement has the word of the parsed index, for every two schemas. The parsed word is not the one of SQL Server when the file is silent, and changes of the word are ignored: refutations."
  },
  {
   "property": "C98",
   "status": "partial",
   "theorems": [
    "C98_sound_schemas_are_planned_partial",
    "C98_conditions_are_testable",
    "C98_run_of_mysqldef_is_applied_partial",
    "C98_run_of_psqldef_is_applied_partial",
    "C98_run_of_mssqldef_is_applied_partial",
    "C98_valid_files_are_refused_refuted"
   ],
   "note": "Proved for the pairs of SpecPlannable, all dialects: defaults that are no booleans, named foreign keys, primary key columns that begin the key there is. Runs in addition under the conditions of C96. False beyond: refutations."
  },
  {
   "property": "C99",
   "status": "proved",
   "theorems": [
    "C99_errors_name_a_fault",
    "C99_refused_runs_name_a_fault"
   ],
   "note": "For every dialect and every two schemas, without any condition on them; errors of the parser are its own."
  },
  {
   "property": "C100",
   "status": "partial",
   "theorems": [
    "C100_mysqldef_line_partial",
    "C100_psqldef_line_partial",
    "C100_mssqldef_line_partial",
    "C100_sqlite3def_line_partial"
   ],
   "note": "Under the conditions of C90 on the line (no MySQL socket, plain host names), of C96 and C98 on database and file; the server is any function that does on the texts of the plan what their effects say."
  },
  {
   "property": "C101",
   "status": "partial",
   "theorems": [
    "C101_mysql_copy_partial",
    "C101_postgres_copy_partial",
    "C101_sqlite_copy_partial",
    "C101_sql_server_copy_partial",
    "C101_forward_reference_refuted",
    "C101_postgres_foreign_keys_refuted",
    "C101_postgres_unique_refuted",
    "C101_sqlite_indexes_refuted",
    "C101_fill_factor_refuted",
    "C101_sql_server_forward_reference_refuted",
    "C101_sql_server_lengths_refuted"
   ],
   "note": "From the line typed to the copy. MySQL: databases of C80 whose tables refer only to themselves and to tables listed before. PostgreSQL: databases of C77 without UNIQUE constraints; the copy has everything but the foreign keys. SQLite: the tables and views of the catalogues of C83. SQL Server: databases of C85 with fill factors for all indexes, whose tables refer back, on servers that keep what they show. False beyond: refutations (a reference to a later table on MySQL is refused; foreign keys of PostgreSQL are lost silently; UNIQUE columns of PostgreSQL are refused; indexes of SQLite are not exported; FILLFACTOR = 0, which SQL Server refuses, is exported for indexes without a fill factor; nvarchar loses its length). References of views and data are not modelled."
  },
  {
   "property": "C102",
   "status": "partial",
   "theorems": [
    "C102_mysql_same_file_partial",
    "C102_postgres_same_file_partial",
    "C102_sql_server_same_file_partial",
    "C102_sqlite_same_file_partial",
    "C102_scale_refuted",
    "C102_collation_stays_refuted",
    "C102_unique_index_stays_refuted",
    "C102_fill_factor_stays_refuted"
   ],
   "note": "Proved of everything the file says, under the conditions of C29, C30, C84 and C88 on the file and each database. What an earlier file said and this one leaves out may stay (collations, options of indexes, some unique indexes), and the scale of a MySQL decimal is never compared: refutations."
  },
  {
   "property": "C103",
   "status": "partial",
   "theorems": [
    "C103_mysql_order_partial",
    "C103_postgres_order_partial",
    "C103_sql_server_order_partial",
    "C103_sqlite_order_partial",
    "C103_rearranged_files_are_planned_partial",
    "C103_index_before_table_refuted"
   ],
   "note": "Under the conditions of C29, C30, C84 and C88 on file and database, for arrangements that are well formed and, except on SQLite, have a plan, as those of plannable files (C98) do. An arrangement in which an index precedes its table is refused: refutation. Agreement is that of C102."
  },
  {
   "property": "C104",
   "status": "partial",
   "theorems": [
    "C104_mysql_last_file_counts_partial",
    "C104_postgres_last_file_counts_partial",
    "C104_sql_server_last_file_counts_partial",
    "C104_sqlite_last_file_counts_partial",
    "C104_going_back_refuted"
   ],
   "note": "Histories of any length, each file in the domain of C29, C30, C84 or C88 for the database it meets; agreement is that of C102. What the last file leaves out may stay from an earlier one: refutation (a collation). Data are not modelled."
  },
  {
   "property": "C105",
   "status": "proved",
   "theorems": [
    "C105_unedited_tables_are_not_altered",
    "C105_unedited_views_are_not_altered",
    "C105_mysql_unedited_tables_stay",
    "C105_postgres_unedited_tables_stay",
    "C105_sql_server_unedited_tables_stay",
    "C105_sqlite_unedited_tables_stay"
   ],
   "note": "All dialects for the plan; the state of the table on the ideal databases of the four dialects, on SQLite with its indexes and triggers. Files create no table twice."
  },
  {
   "property": "C106",
   "status": "partial",
   "theorems": [
    "C106_stopped_sqlite_run_is_resumed_partial",
    "C106_stopped_mysql_run_is_resumed_partial",
    "C106_stopped_mysql_run_is_resumed_without_counters_partial"
   ],
   "note": "SQLite, in the domain of C84, for any number of runs stopped anywhere. MySQL, in the domain of C29, for any number of runs stopped anywhere if the file has no AUTO_INCREMENT, and otherwise before the first statement that changes a column to one with AUTO_INCREMENT or drops a key of a table that has one in the file; if the next run has a plan. Missing: MySQL runs stopped after such a statement; PostgreSQL and SQL Server, where sqldef runs the plan in one transaction."
  }
 ]
}
