(** The grammar of the SQL that sqldef reads, /repo/sqlparser/parser.y, and its meaning.  The list
    of productions was transcribed from parser.y; production 430 stands for the action in the
    middle of [comment_opt]. *)
From Coq Require Import String Ascii List ZArith.
From Verif Require Import Lexer ParserValues ParserActions.
Import ListNotations.
Local Open Scope string_scope.

Inductive symbol := Terminal (k : kind) | Nonterminal (name : string).
Definition n (name : string) : symbol := Nonterminal name.
Definition t (name : string) : symbol := Terminal (KTok name).
Definition c (a : ascii) : symbol := Terminal (KChar a).

Definition productions : list (string * list symbol) :=
  [
   (* 0 *) ("$accept", [n "any_command"; Terminal KEnd]);
   (* 1 *) ("any_command", [n "command"; n "semicolon_opt"]);
   (* 2 *) ("semicolon_opt", []);
   (* 3 *) ("semicolon_opt", [c ";"]);
   (* 4 *) ("command", [n "select_statement"]);
   (* 5 *) ("command", [n "stream_statement"]);
   (* 6 *) ("command", [n "insert_statement"]);
   (* 7 *) ("command", [n "update_statement"]);
   (* 8 *) ("command", [n "delete_statement"]);
   (* 9 *) ("command", [n "set_statement"]);
   (* 10 *) ("command", [n "create_statement"]);
   (* 11 *) ("command", [n "alter_statement"]);
   (* 12 *) ("command", [n "rename_statement"]);
   (* 13 *) ("command", [n "drop_statement"]);
   (* 14 *) ("command", [n "truncate_statement"]);
   (* 15 *) ("command", [n "analyze_statement"]);
   (* 16 *) ("command", [n "show_statement"]);
   (* 17 *) ("command", [n "use_statement"]);
   (* 18 *) ("command", [n "begin_statement"]);
   (* 19 *) ("command", [n "commit_statement"]);
   (* 20 *) ("command", [n "rollback_statement"]);
   (* 21 *) ("command", [n "other_statement"]);
   (* 22 *) ("select_statement", [n "base_select"; n "order_by_opt"; n "limit_opt"; n "lock_opt"]);
   (* 23 *) ("select_statement", [n "union_lhs"; n "union_op"; n "union_rhs"; n "order_by_opt"; n "limit_opt"; n "lock_opt"]);
   (* 24 *) ("select_statement", [t "SELECT"; n "comment_opt"; n "cache_opt"; t "NEXT"; n "num_val"; n "for_from"; n "table_name"]);
   (* 25 *) ("stream_statement", [t "STREAM"; n "comment_opt"; n "select_expression"; t "FROM"; n "table_name"]);
   (* 26 *) ("base_select", [t "SELECT"; n "comment_opt"; n "cache_opt"; n "distinct_opt"; n "straight_join_opt"; n "select_expression_list"; n "from_opt"; n "where_expression_opt"; n "group_by_opt"; n "having_opt"]);
   (* 27 *) ("union_lhs", [n "select_statement"]);
   (* 28 *) ("union_lhs", [n "openb"; n "select_statement"; n "closeb"]);
   (* 29 *) ("union_rhs", [n "base_select"]);
   (* 30 *) ("union_rhs", [n "openb"; n "select_statement"; n "closeb"]);
   (* 31 *) ("insert_statement", [n "insert_or_replace"; n "comment_opt"; n "ignore_opt"; n "into_table_name"; n "opt_partition_clause"; n "insert_data"; n "on_dup_opt"]);
   (* 32 *) ("insert_statement", [n "insert_or_replace"; n "comment_opt"; n "ignore_opt"; n "into_table_name"; n "opt_partition_clause"; t "SET"; n "update_list"; n "on_dup_opt"]);
   (* 33 *) ("insert_or_replace", [t "INSERT"]);
   (* 34 *) ("insert_or_replace", [t "REPLACE"]);
   (* 35 *) ("update_statement", [t "UPDATE"; n "comment_opt"; n "table_references"; t "SET"; n "update_list"; n "where_expression_opt"; n "order_by_opt"; n "limit_opt"]);
   (* 36 *) ("delete_statement", [t "DELETE"; n "comment_opt"; t "FROM"; n "table_name"; n "opt_partition_clause"; n "where_expression_opt"; n "order_by_opt"; n "limit_opt"]);
   (* 37 *) ("delete_statement", [t "DELETE"; n "comment_opt"; t "FROM"; n "table_name_list"; t "USING"; n "table_references"; n "where_expression_opt"]);
   (* 38 *) ("delete_statement", [t "DELETE"; n "comment_opt"; n "table_name_list"; n "from_or_using"; n "table_references"; n "where_expression_opt"]);
   (* 39 *) ("from_or_using", [t "FROM"]);
   (* 40 *) ("from_or_using", [t "USING"]);
   (* 41 *) ("table_name_list", [n "table_name"]);
   (* 42 *) ("table_name_list", [n "table_name_list"; c ","; n "table_name"]);
   (* 43 *) ("opt_partition_clause", []);
   (* 44 *) ("opt_partition_clause", [t "PARTITION"; n "openb"; n "partition_list"; n "closeb"]);
   (* 45 *) ("set_statement", [t "SET"; n "comment_opt"; n "set_list"]);
   (* 46 *) ("set_statement", [t "SET"; n "comment_opt"; n "set_session_or_global"; n "set_list"]);
   (* 47 *) ("set_statement", [t "SET"; n "comment_opt"; n "set_session_or_global"; t "TRANSACTION"; n "transaction_chars"]);
   (* 48 *) ("set_statement", [t "SET"; n "comment_opt"; t "TRANSACTION"; n "transaction_chars"]);
   (* 49 *) ("transaction_chars", [n "transaction_char"]);
   (* 50 *) ("transaction_chars", [n "transaction_chars"; c ","; n "transaction_char"]);
   (* 51 *) ("transaction_char", [t "ISOLATION"; t "LEVEL"; n "isolation_level"]);
   (* 52 *) ("transaction_char", [t "READ"; t "WRITE"]);
   (* 53 *) ("transaction_char", [t "READ"; t "ONLY"]);
   (* 54 *) ("isolation_level", [t "REPEATABLE"; t "READ"]);
   (* 55 *) ("isolation_level", [t "READ"; t "COMMITTED"]);
   (* 56 *) ("isolation_level", [t "READ"; t "UNCOMMITTED"]);
   (* 57 *) ("isolation_level", [t "SERIALIZABLE"]);
   (* 58 *) ("set_session_or_global", [t "SESSION"]);
   (* 59 *) ("set_session_or_global", [t "GLOBAL"]);
   (* 60 *) ("create_statement", [n "create_table_prefix"; n "table_spec"]);
   (* 61 *) ("create_statement", [t "CREATE"; n "unique_opt"; n "clustered_opt"; t "INDEX"; n "sql_id"; t "ON"; n "table_name"; c "("; n "index_column_list"; c ")"; n "include_columns_opt"; n "where_expression_opt"; n "index_option_opt"; n "index_partition_opt"]);
   (* 62 *) ("create_statement", [t "CREATE"; n "unique_opt"; n "clustered_opt"; t "INDEX"; n "sql_id"; t "USING"; n "sql_id"; t "ON"; n "table_name"; c "("; n "index_column_list"; c ")"; n "index_option_opt"]);
   (* 63 *) ("create_statement", [t "CREATE"; n "unique_opt"; n "clustered_opt"; t "INDEX"; n "sql_id"; t "ON"; n "table_name"; t "USING"; n "sql_id"; c "("; n "index_column_list"; c ")"; n "where_expression_opt"; n "index_option_opt"]);
   (* 64 *) ("create_statement", [t "CREATE"; n "or_replace_opt"; t "VIEW"; n "table_name"; t "AS"; n "select_statement"]);
   (* 65 *) ("create_statement", [t "CREATE"; t "VINDEX"; n "sql_id"; n "vindex_type_opt"; n "vindex_params_opt"]);
   (* 66 *) ("create_statement", [t "CREATE"; t "DATABASE"; n "not_exists_opt"; t "ID"; n "ddl_force_eof"]);
   (* 67 *) ("create_statement", [t "CREATE"; t "SCHEMA"; n "not_exists_opt"; t "ID"; n "ddl_force_eof"]);
   (* 68 *) ("create_statement", [t "CREATE"; t "POLICY"; n "sql_id"; t "ON"; n "table_name"; n "policy_as_opt"; n "policy_for_opt"; t "TO"; n "sql_id_list"; n "using_opt"; n "with_check_opt"]);
   (* 69 *) ("create_statement", [t "CREATE"; t "TRIGGER"; n "sql_id"; n "trigger_time"; n "trigger_event"; t "ON"; n "table_name"; t "FOR"; t "EACH"; t "ROW"; n "trigger_statement"]);
   (* 70 *) ("create_statement", [t "CREATE"; t "TRIGGER"; n "sql_id"; t "ON"; n "table_name"; n "trigger_time"; n "trigger_event"; t "AS"; n "trigger_body"]);
   (* 71 *) ("trigger_time", [t "BEFORE"]);
   (* 72 *) ("trigger_time", [t "AFTER"]);
   (* 73 *) ("trigger_event", [t "INSERT"]);
   (* 74 *) ("trigger_event", [t "UPDATE"]);
   (* 75 *) ("trigger_event", [t "DELETE"]);
   (* 76 *) ("trigger_body", [n "trigger_statement"]);
   (* 77 *) ("trigger_body", [n "trigger_body"; n "trigger_statement"]);
   (* 78 *) ("trigger_statement", [n "insert_statement"]);
   (* 79 *) ("trigger_statement", [n "delete_statement"]);
   (* 80 *) ("trigger_statement", [n "update_statement"]);
   (* 81 *) ("policy_as_opt", []);
   (* 82 *) ("policy_as_opt", [t "AS"; t "PERMISSIVE"]);
   (* 83 *) ("policy_as_opt", [t "AS"; t "RESTRICTIVE"]);
   (* 84 *) ("policy_for_opt", []);
   (* 85 *) ("policy_for_opt", [t "FOR"; t "ALL"]);
   (* 86 *) ("policy_for_opt", [t "FOR"; t "SELECT"]);
   (* 87 *) ("policy_for_opt", [t "FOR"; t "INSERT"]);
   (* 88 *) ("policy_for_opt", [t "FOR"; t "UPDATE"]);
   (* 89 *) ("policy_for_opt", [t "FOR"; t "DELETE"]);
   (* 90 *) ("using_opt", []);
   (* 91 *) ("using_opt", [t "USING"; n "expression"]);
   (* 92 *) ("with_check_opt", []);
   (* 93 *) ("with_check_opt", [t "WITH"; t "CHECK"; n "expression"]);
   (* 94 *) ("unique_opt", []);
   (* 95 *) ("unique_opt", [t "UNIQUE"]);
   (* 96 *) ("vindex_type_opt", []);
   (* 97 *) ("vindex_type_opt", [t "USING"; n "vindex_type"]);
   (* 98 *) ("vindex_type", [t "ID"]);
   (* 99 *) ("vindex_params_opt", []);
   (* 100 *) ("vindex_params_opt", [t "WITH"; n "vindex_param_list"]);
   (* 101 *) ("vindex_param_list", [n "vindex_param"]);
   (* 102 *) ("vindex_param_list", [n "vindex_param_list"; c ","; n "vindex_param"]);
   (* 103 *) ("vindex_param", [n "reserved_sql_id"; c "="; n "table_opt_value"]);
   (* 104 *) ("or_replace_opt", []);
   (* 105 *) ("or_replace_opt", [t "OR"; t "REPLACE"]);
   (* 106 *) ("create_table_prefix", [t "CREATE"; t "TABLE"; n "not_exists_opt"; n "table_name"]);
   (* 107 *) ("table_spec", [c "("; n "table_column_list"; c ")"; n "table_option_list"]);
   (* 108 *) ("table_column_list", [n "column_definition"]);
   (* 109 *) ("table_column_list", [n "table_column_list"; c ","; n "column_definition"]);
   (* 110 *) ("table_column_list", [n "table_column_list"; c ","; n "index_definition"]);
   (* 111 *) ("table_column_list", [n "table_column_list"; c ","; n "foreign_key_definition"]);
   (* 112 *) ("table_column_list", [n "table_column_list"; c ","; n "primary_key_definition"]);
   (* 113 *) ("column_definition", [t "ID"; n "column_definition_type"]);
   (* 114 *) ("column_type", [n "numeric_type"; n "unsigned_opt"; n "zero_fill_opt"]);
   (* 115 *) ("column_type", [n "bool_type"]);
   (* 116 *) ("column_type", [n "char_type"]);
   (* 117 *) ("column_type", [n "time_type"]);
   (* 118 *) ("column_type", [n "spatial_type"]);
   (* 119 *) ("column_definition_type", [n "column_type"; n "array_opt"]);
   (* 120 *) ("column_definition_type", [n "column_definition_type"; t "NULL"]);
   (* 121 *) ("column_definition_type", [n "column_definition_type"; t "NOT"; t "NULL"]);
   (* 122 *) ("column_definition_type", [n "column_definition_type"; n "default_definition"]);
   (* 123 *) ("column_definition_type", [n "column_definition_type"; t "CONSTRAINT"; n "sql_id"; n "default_definition"]);
   (* 124 *) ("column_definition_type", [n "column_definition_type"; t "ON"; t "UPDATE"; n "current_timestamp"]);
   (* 125 *) ("column_definition_type", [n "column_definition_type"; t "AUTO_INCREMENT"]);
   (* 126 *) ("column_definition_type", [n "column_definition_type"; t "AUTOINCREMENT"]);
   (* 127 *) ("column_definition_type", [n "column_definition_type"; t "PRIMARY"; t "KEY"]);
   (* 128 *) ("column_definition_type", [n "column_definition_type"; t "KEY"]);
   (* 129 *) ("column_definition_type", [n "column_definition_type"; t "UNIQUE"; t "KEY"]);
   (* 130 *) ("column_definition_type", [n "column_definition_type"; t "UNIQUE"]);
   (* 131 *) ("column_definition_type", [n "column_definition_type"; t "CHECK"; n "not_for_replication_opt"; n "openb"; n "expression"; n "closeb"; n "no_inherit_opt"]);
   (* 132 *) ("column_definition_type", [n "column_definition_type"; t "CONSTRAINT"; n "sql_id"; t "CHECK"; n "not_for_replication_opt"; n "openb"; n "expression"; n "closeb"]);
   (* 133 *) ("column_definition_type", [n "column_definition_type"; t "COMMENT_KEYWORD"; t "STRING"]);
   (* 134 *) ("column_definition_type", [n "column_definition_type"; t "REFERENCES"; n "table_id"]);
   (* 135 *) ("column_definition_type", [n "column_definition_type"; t "REFERENCES"; n "table_id"; c "("; n "column_list"; c ")"]);
   (* 136 *) ("column_definition_type", [n "column_definition_type"; t "GENERATED"; n "identity_behavior"; t "AS"; t "IDENTITY"]);
   (* 137 *) ("column_definition_type", [n "column_definition_type"; t "GENERATED"; n "identity_behavior"; t "AS"; t "IDENTITY"; c "("; n "sequence_opt"; c ")"]);
   (* 138 *) ("column_definition_type", [n "column_definition_type"; t "IDENTITY"; c "("; t "INTEGRAL"; c ","; t "INTEGRAL"; c ")"]);
   (* 139 *) ("column_definition_type", [n "column_definition_type"; t "NOT"; t "FOR"; t "REPLICATION"]);
   (* 140 *) ("default_definition", [t "DEFAULT"; n "default_val"]);
   (* 141 *) ("default_definition", [t "DEFAULT"; c "("; n "default_val"; c ")"]);
   (* 142 *) ("default_definition", [t "DEFAULT"; c "("; c "("; n "default_val"; c ")"; c ")"]);
   (* 143 *) ("default_val", [t "STRING"; n "character_cast_opt"]);
   (* 144 *) ("default_val", [t "INTEGRAL"]);
   (* 145 *) ("default_val", [t "FLOAT"]);
   (* 146 *) ("default_val", [t "NULL"]);
   (* 147 *) ("default_val", [n "current_timestamp"]);
   (* 148 *) ("default_val", [t "BIT_LITERAL"]);
   (* 149 *) ("default_val", [n "boolean_value"]);
   (* 150 *) ("default_val", [t "NOW"; n "openb"; n "closeb"]);
   (* 151 *) ("identity_behavior", [t "ALWAYS"]);
   (* 152 *) ("identity_behavior", [t "BY"; t "DEFAULT"]);
   (* 153 *) ("sequence_opt", []);
   (* 154 *) ("sequence_opt", [n "sequence_opt"; t "START"; t "WITH"; t "INTEGRAL"]);
   (* 155 *) ("sequence_opt", [n "sequence_opt"; t "START"; t "INTEGRAL"]);
   (* 156 *) ("sequence_opt", [n "sequence_opt"; t "INCREMENT"; t "BY"; t "INTEGRAL"]);
   (* 157 *) ("sequence_opt", [n "sequence_opt"; t "INCREMENT"; t "INTEGRAL"]);
   (* 158 *) ("sequence_opt", [n "sequence_opt"; t "MINVALUE"; t "INTEGRAL"]);
   (* 159 *) ("sequence_opt", [n "sequence_opt"; t "MAXVALUE"; t "INTEGRAL"]);
   (* 160 *) ("sequence_opt", [n "sequence_opt"; t "CACHE"; t "INTEGRAL"]);
   (* 161 *) ("sequence_opt", [n "sequence_opt"; t "NO"; t "MINVALUE"]);
   (* 162 *) ("sequence_opt", [n "sequence_opt"; t "NO"; t "MAXVALUE"]);
   (* 163 *) ("sequence_opt", [n "sequence_opt"; t "NO"; t "CYCLE"]);
   (* 164 *) ("sequence_opt", [n "sequence_opt"; t "CYCLE"]);
   (* 165 *) ("sequence_opt", [n "sequence_opt"; t "OWNED"; t "BY"; t "NONE"]);
   (* 166 *) ("sequence_opt", [n "sequence_opt"; t "OWNED"; t "BY"; n "table_id"; c "."; n "reserved_sql_id"]);
   (* 167 *) ("current_timestamp", [t "CURRENT_TIMESTAMP"; n "length_opt"]);
   (* 168 *) ("current_timestamp", [t "CURRENT_TIMESTAMP"; c "("; c ")"]);
   (* 169 *) ("current_timestamp", [t "CURRENT_TIME"; n "length_opt"]);
   (* 170 *) ("current_timestamp", [t "CURRENT_TIME"; c "("; c ")"]);
   (* 171 *) ("current_timestamp", [t "CURRENT_DATE"]);
   (* 172 *) ("current_timestamp", [t "GETDATE"; c "("; c ")"]);
   (* 173 *) ("no_inherit_opt", []);
   (* 174 *) ("no_inherit_opt", [t "NO"; t "INHERIT"]);
   (* 175 *) ("character_cast_opt", []);
   (* 176 *) ("character_cast_opt", [t "TYPECAST"; t "CHARACTER"; t "VARYING"]);
   (* 177 *) ("character_cast_opt", [t "TYPECAST"; t "TIMESTAMP"; n "time_zone_opt"]);
   (* 178 *) ("character_cast_opt", [t "TYPECAST"; t "BPCHAR"]);
   (* 179 *) ("character_cast_opt", [t "TYPECAST"; t "TEXT"]);
   (* 180 *) ("numeric_type", [n "int_type"; n "length_opt"]);
   (* 181 *) ("numeric_type", [n "decimal_type"]);
   (* 182 *) ("int_type", [t "BIT"]);
   (* 183 *) ("int_type", [t "TINYINT"]);
   (* 184 *) ("int_type", [t "SMALLINT"]);
   (* 185 *) ("int_type", [t "SMALLSERIAL"]);
   (* 186 *) ("int_type", [t "MEDIUMINT"]);
   (* 187 *) ("int_type", [t "INT"]);
   (* 188 *) ("int_type", [t "INTEGER"]);
   (* 189 *) ("int_type", [t "SERIAL"]);
   (* 190 *) ("int_type", [t "BIGINT"]);
   (* 191 *) ("int_type", [t "BIGSERIAL"]);
   (* 192 *) ("decimal_type", [t "REAL"; n "float_length_opt"]);
   (* 193 *) ("decimal_type", [t "DOUBLE"; t "PRECISION"; n "float_length_opt"]);
   (* 194 *) ("decimal_type", [t "DOUBLE"; n "float_length_opt"]);
   (* 195 *) ("decimal_type", [t "FLOAT_TYPE"; n "float_length_opt"]);
   (* 196 *) ("decimal_type", [t "DECIMAL"; n "decimal_length_opt"]);
   (* 197 *) ("decimal_type", [t "NUMERIC"; n "decimal_length_opt"]);
   (* 198 *) ("decimal_type", [t "MONEY"]);
   (* 199 *) ("decimal_type", [t "SMALLMONEY"]);
   (* 200 *) ("time_type", [t "DATE"]);
   (* 201 *) ("time_type", [t "TIME"; n "length_opt"; n "time_zone_opt"]);
   (* 202 *) ("time_type", [t "TIMESTAMP"; n "length_opt"; n "time_zone_opt"]);
   (* 203 *) ("time_type", [t "DATETIME"; n "length_opt"]);
   (* 204 *) ("time_type", [t "DATETIME2"]);
   (* 205 *) ("time_type", [t "DATETIMEOFFSET"; n "length_opt"]);
   (* 206 *) ("time_type", [t "SMALLDATETIME"]);
   (* 207 *) ("time_type", [t "YEAR"]);
   (* 208 *) ("bool_type", [t "BOOL"]);
   (* 209 *) ("bool_type", [t "BOOLEAN"]);
   (* 210 *) ("char_type", [t "CHAR"; n "length_opt"; n "charset_opt"; n "collate_opt"]);
   (* 211 *) ("char_type", [t "CHARACTER"; n "length_opt"; n "charset_opt"; n "collate_opt"]);
   (* 212 *) ("char_type", [t "VARCHAR"; n "length_opt"; n "charset_opt"; n "collate_opt"]);
   (* 213 *) ("char_type", [t "NCHAR"; n "length_opt"; n "charset_opt"; n "collate_opt"]);
   (* 214 *) ("char_type", [t "NVARCHAR"; n "length_opt"; n "charset_opt"; n "collate_opt"]);
   (* 215 *) ("char_type", [t "NTEXT"]);
   (* 216 *) ("char_type", [t "CHARACTER"; t "VARYING"; n "length_opt"; n "charset_opt"; n "collate_opt"]);
   (* 217 *) ("char_type", [t "BINARY"; n "length_opt"]);
   (* 218 *) ("char_type", [t "VARBINARY"; n "length_opt"]);
   (* 219 *) ("char_type", [t "TEXT"; n "charset_opt"; n "collate_opt"]);
   (* 220 *) ("char_type", [t "TINYTEXT"; n "charset_opt"; n "collate_opt"]);
   (* 221 *) ("char_type", [t "MEDIUMTEXT"; n "charset_opt"; n "collate_opt"]);
   (* 222 *) ("char_type", [t "LONGTEXT"; n "charset_opt"; n "collate_opt"]);
   (* 223 *) ("char_type", [t "CITEXT"; n "charset_opt"; n "collate_opt"]);
   (* 224 *) ("char_type", [t "BLOB"]);
   (* 225 *) ("char_type", [t "TINYBLOB"]);
   (* 226 *) ("char_type", [t "MEDIUMBLOB"]);
   (* 227 *) ("char_type", [t "LONGBLOB"]);
   (* 228 *) ("char_type", [t "JSON"]);
   (* 229 *) ("char_type", [t "JSONB"]);
   (* 230 *) ("char_type", [t "UUID"]);
   (* 231 *) ("char_type", [t "ENUM"; c "("; n "enum_values"; c ")"; n "charset_opt"; n "collate_opt"]);
   (* 232 *) ("char_type", [t "SET"; c "("; n "enum_values"; c ")"; n "charset_opt"; n "collate_opt"]);
   (* 233 *) ("spatial_type", [t "GEOMETRY"]);
   (* 234 *) ("spatial_type", [t "POINT"]);
   (* 235 *) ("spatial_type", [t "LINESTRING"]);
   (* 236 *) ("spatial_type", [t "POLYGON"]);
   (* 237 *) ("spatial_type", [t "GEOMETRYCOLLECTION"]);
   (* 238 *) ("spatial_type", [t "MULTIPOINT"]);
   (* 239 *) ("spatial_type", [t "MULTILINESTRING"]);
   (* 240 *) ("spatial_type", [t "MULTIPOLYGON"]);
   (* 241 *) ("enum_values", [t "STRING"]);
   (* 242 *) ("enum_values", [n "enum_values"; c ","; t "STRING"]);
   (* 243 *) ("length_opt", []);
   (* 244 *) ("length_opt", [c "("; t "INTEGRAL"; c ")"]);
   (* 245 *) ("float_length_opt", []);
   (* 246 *) ("float_length_opt", [c "("; t "INTEGRAL"; c ","; t "INTEGRAL"; c ")"]);
   (* 247 *) ("decimal_length_opt", []);
   (* 248 *) ("decimal_length_opt", [c "("; t "INTEGRAL"; c ")"]);
   (* 249 *) ("decimal_length_opt", [c "("; t "INTEGRAL"; c ","; t "INTEGRAL"; c ")"]);
   (* 250 *) ("time_zone_opt", []);
   (* 251 *) ("time_zone_opt", [t "WITH"; t "TIME"; t "ZONE"]);
   (* 252 *) ("time_zone_opt", [t "WITHOUT"; t "TIME"; t "ZONE"]);
   (* 253 *) ("unsigned_opt", []);
   (* 254 *) ("unsigned_opt", [t "UNSIGNED"]);
   (* 255 *) ("zero_fill_opt", []);
   (* 256 *) ("zero_fill_opt", [t "ZEROFILL"]);
   (* 257 *) ("array_opt", []);
   (* 258 *) ("array_opt", [c "["; c "]"]);
   (* 259 *) ("array_opt", [t "ARRAY"]);
   (* 260 *) ("charset_opt", []);
   (* 261 *) ("charset_opt", [t "CHARACTER"; t "SET"; t "ID"]);
   (* 262 *) ("charset_opt", [t "CHARACTER"; t "SET"; t "BINARY"]);
   (* 263 *) ("collate_opt", []);
   (* 264 *) ("collate_opt", [t "BINARY"]);
   (* 265 *) ("collate_opt", [t "COLLATE"; t "ID"]);
   (* 266 *) ("index_definition", [n "index_info"; c "("; n "index_column_list"; c ")"; n "index_option_opt"; n "index_partition_opt"]);
   (* 267 *) ("index_option_opt", []);
   (* 268 *) ("index_option_opt", [n "index_option_list"]);
   (* 269 *) ("index_option_opt", [t "WITH"; c "("; n "mssql_index_option_list"; c ")"]);
   (* 270 *) ("index_option_list", [n "index_option"]);
   (* 271 *) ("index_option_list", [n "index_option_list"; n "index_option"]);
   (* 272 *) ("mssql_index_option_list", [n "index_option"]);
   (* 273 *) ("mssql_index_option_list", [n "mssql_index_option_list"; c ","; n "index_option"]);
   (* 274 *) ("index_option", [t "USING"; t "ID"]);
   (* 275 *) ("index_option", [t "KEY_BLOCK_SIZE"; n "equal_opt"; t "INTEGRAL"]);
   (* 276 *) ("index_option", [t "COMMENT_KEYWORD"; t "STRING"]);
   (* 277 *) ("index_option", [t "WITH"; t "PARSER"; n "sql_id"]);
   (* 278 *) ("index_option", [t "PAD_INDEX"; c "="; n "on_off"]);
   (* 279 *) ("index_option", [t "FILLFACTOR"; c "="; t "INTEGRAL"]);
   (* 280 *) ("index_option", [t "IGNORE_DUP_KEY"; c "="; n "on_off"]);
   (* 281 *) ("index_option", [t "STATISTICS_NORECOMPUTE"; c "="; n "on_off"]);
   (* 282 *) ("index_option", [t "STATISTICS_INCREMENTAL"; c "="; n "on_off"]);
   (* 283 *) ("index_option", [t "ALLOW_ROW_LOCKS"; c "="; n "on_off"]);
   (* 284 *) ("index_option", [t "ALLOW_PAGE_LOCKS"; c "="; n "on_off"]);
   (* 285 *) ("equal_opt", []);
   (* 286 *) ("equal_opt", [c "="]);
   (* 287 *) ("on_off", [t "ON"]);
   (* 288 *) ("on_off", [t "OFF"]);
   (* 289 *) ("index_partition_opt", []);
   (* 290 *) ("index_partition_opt", [t "ON"; n "sql_id"]);
   (* 291 *) ("index_partition_opt", [t "ON"; n "sql_id"; n "openb"; n "sql_id"; n "closeb"]);
   (* 292 *) ("index_info", [t "PRIMARY"; t "KEY"]);
   (* 293 *) ("index_info", [t "SPATIAL"; n "index_or_key"; t "ID"]);
   (* 294 *) ("index_info", [t "FULLTEXT"; n "index_or_key"; t "ID"]);
   (* 295 *) ("index_info", [t "FULLTEXT"; t "ID"]);
   (* 296 *) ("index_info", [t "UNIQUE"; n "index_or_key"; t "ID"]);
   (* 297 *) ("index_info", [t "UNIQUE"; t "ID"]);
   (* 298 *) ("index_info", [n "index_or_key"; t "ID"; n "clustered_opt"]);
   (* 299 *) ("index_info", [n "index_or_key"; t "ID"; t "UNIQUE"; n "clustered_opt"]);
   (* 300 *) ("index_or_key", [t "INDEX"]);
   (* 301 *) ("index_or_key", [t "KEY"]);
   (* 302 *) ("index_column_list", [n "index_column"]);
   (* 303 *) ("index_column_list", [n "index_column_list"; c ","; n "index_column"]);
   (* 304 *) ("index_column", [n "sql_id"; n "length_opt"; n "asc_desc_opt"]);
   (* 305 *) ("index_column", [t "KEY"; n "length_opt"]);
   (* 306 *) ("foreign_key_definition", [n "foreign_key_without_options"; n "not_for_replication_opt"]);
   (* 307 *) ("foreign_key_definition", [n "foreign_key_without_options"; t "ON"; t "DELETE"; n "reference_option"; n "not_for_replication_opt"]);
   (* 308 *) ("foreign_key_definition", [n "foreign_key_without_options"; t "ON"; t "UPDATE"; n "reference_option"; n "not_for_replication_opt"]);
   (* 309 *) ("foreign_key_definition", [n "foreign_key_without_options"; t "ON"; t "DELETE"; n "reference_option"; t "ON"; t "UPDATE"; n "reference_option"; n "not_for_replication_opt"]);
   (* 310 *) ("foreign_key_definition", [n "foreign_key_without_options"; t "ON"; t "UPDATE"; n "reference_option"; t "ON"; t "DELETE"; n "reference_option"; n "not_for_replication_opt"]);
   (* 311 *) ("foreign_key_without_options", [t "CONSTRAINT"; n "sql_id_opt"; t "FOREIGN"; t "KEY"; n "sql_id_opt"; c "("; n "sql_id_list"; c ")"; t "REFERENCES"; n "table_name"; c "("; n "sql_id_list"; c ")"]);
   (* 312 *) ("reference_option", [t "RESTRICT"]);
   (* 313 *) ("reference_option", [t "CASCADE"]);
   (* 314 *) ("reference_option", [t "SET"; t "NULL"]);
   (* 315 *) ("reference_option", [t "NO"; t "ACTION"]);
   (* 316 *) ("primary_key_definition", [t "CONSTRAINT"; n "sql_id"; t "PRIMARY"; t "KEY"; n "clustered_opt"; c "("; n "index_column_list"; c ")"; n "index_option_opt"; n "index_partition_opt"]);
   (* 317 *) ("clustered_opt", []);
   (* 318 *) ("clustered_opt", [t "CLUSTERED"]);
   (* 319 *) ("clustered_opt", [t "NONCLUSTERED"]);
   (* 320 *) ("not_for_replication_opt", []);
   (* 321 *) ("not_for_replication_opt", [t "NOT"; t "FOR"; t "REPLICATION"]);
   (* 322 *) ("sql_id_opt", []);
   (* 323 *) ("sql_id_opt", [n "sql_id"]);
   (* 324 *) ("sql_id_list", [n "sql_id"]);
   (* 325 *) ("sql_id_list", [n "sql_id_list"; c ","; n "sql_id"]);
   (* 326 *) ("table_option_list", []);
   (* 327 *) ("table_option_list", [n "table_option"]);
   (* 328 *) ("table_option_list", [n "table_option_list"; c ","; n "table_option"]);
   (* 329 *) ("table_option", [n "table_opt_value"]);
   (* 330 *) ("table_option", [n "table_option"; n "table_opt_value"]);
   (* 331 *) ("table_option", [n "table_option"; c "="; n "table_opt_value"]);
   (* 332 *) ("table_opt_value", [n "reserved_sql_id"]);
   (* 333 *) ("table_opt_value", [t "STRING"]);
   (* 334 *) ("table_opt_value", [t "INTEGRAL"]);
   (* 335 *) ("alter_statement", [t "ALTER"; n "ignore_opt"; t "TABLE"; n "table_name"; n "non_add_drop_or_rename_operation"; n "force_eof"]);
   (* 336 *) ("alter_statement", [t "ALTER"; n "ignore_opt"; t "TABLE"; n "table_name"; t "ADD"; n "unique_opt"; n "alter_object_type_index"; n "sql_id"; c "("; n "index_column_list"; c ")"]);
   (* 337 *) ("alter_statement", [t "ALTER"; n "ignore_opt"; t "TABLE"; t "ONLY"; n "table_name"; t "ADD"; t "CONSTRAINT"; n "sql_id"; t "PRIMARY"; t "KEY"; c "("; n "index_column_list"; c ")"]);
   (* 338 *) ("alter_statement", [t "ALTER"; n "ignore_opt"; t "TABLE"; t "ONLY"; n "table_name"; t "ADD"; n "foreign_key_definition"]);
   (* 339 *) ("alter_statement", [t "ALTER"; n "ignore_opt"; t "TABLE"; n "table_name"; t "ADD"; n "alter_object_type_rest"; n "force_eof"]);
   (* 340 *) ("alter_statement", [t "ALTER"; n "ignore_opt"; t "TABLE"; n "table_name"; t "DROP"; n "alter_object_type"; n "force_eof"]);
   (* 341 *) ("alter_statement", [t "ALTER"; n "ignore_opt"; t "TABLE"; n "table_name"; t "ADD"; t "VINDEX"; n "sql_id"; c "("; n "column_list"; c ")"; n "vindex_type_opt"; n "vindex_params_opt"]);
   (* 342 *) ("alter_statement", [t "ALTER"; n "ignore_opt"; t "TABLE"; n "table_name"; t "DROP"; t "VINDEX"; n "sql_id"]);
   (* 343 *) ("alter_statement", [t "ALTER"; n "ignore_opt"; t "TABLE"; n "table_name"; t "RENAME"; n "to_opt"; n "table_name"]);
   (* 344 *) ("alter_statement", [t "ALTER"; n "ignore_opt"; t "TABLE"; n "table_name"; t "RENAME"; n "index_opt"; n "force_eof"]);
   (* 345 *) ("alter_statement", [t "ALTER"; t "VIEW"; n "table_name"; n "ddl_force_eof"]);
   (* 346 *) ("alter_statement", [t "ALTER"; n "ignore_opt"; t "TABLE"; n "table_name"; n "partition_operation"]);
   (* 347 *) ("alter_object_type", [t "COLUMN"]);
   (* 348 *) ("alter_object_type", [t "CONSTRAINT"]);
   (* 349 *) ("alter_object_type", [t "FOREIGN"]);
   (* 350 *) ("alter_object_type", [t "FULLTEXT"]);
   (* 351 *) ("alter_object_type", [t "ID"]);
   (* 352 *) ("alter_object_type", [t "INDEX"]);
   (* 353 *) ("alter_object_type", [t "KEY"]);
   (* 354 *) ("alter_object_type", [t "PRIMARY"]);
   (* 355 *) ("alter_object_type", [t "SPATIAL"]);
   (* 356 *) ("alter_object_type", [t "PARTITION"]);
   (* 357 *) ("alter_object_type", [t "UNIQUE"]);
   (* 358 *) ("alter_object_type_index", [t "INDEX"]);
   (* 359 *) ("alter_object_type_index", [t "KEY"]);
   (* 360 *) ("alter_object_type_rest", [t "COLUMN"]);
   (* 361 *) ("alter_object_type_rest", [t "FOREIGN"]);
   (* 362 *) ("alter_object_type_rest", [t "FULLTEXT"]);
   (* 363 *) ("alter_object_type_rest", [t "ID"]);
   (* 364 *) ("alter_object_type_rest", [t "PRIMARY"]);
   (* 365 *) ("alter_object_type_rest", [t "SPATIAL"]);
   (* 366 *) ("alter_object_type_rest", [t "PARTITION"]);
   (* 367 *) ("partition_operation", [t "REORGANIZE"; t "PARTITION"; n "sql_id"; t "INTO"; n "openb"; n "partition_definitions"; n "closeb"]);
   (* 368 *) ("partition_definitions", [n "partition_definition"]);
   (* 369 *) ("partition_definitions", [n "partition_definitions"; c ","; n "partition_definition"]);
   (* 370 *) ("partition_definition", [t "PARTITION"; n "sql_id"; t "VALUES"; t "LESS"; t "THAN"; n "openb"; n "value_expression"; n "closeb"]);
   (* 371 *) ("partition_definition", [t "PARTITION"; n "sql_id"; t "VALUES"; t "LESS"; t "THAN"; n "openb"; t "MAXVALUE"; n "closeb"]);
   (* 372 *) ("rename_statement", [t "RENAME"; t "TABLE"; n "table_name"; t "TO"; n "table_name"]);
   (* 373 *) ("drop_statement", [t "DROP"; t "TABLE"; n "exists_opt"; n "table_name"]);
   (* 374 *) ("drop_statement", [t "DROP"; t "INDEX"; t "ID"; t "ON"; n "table_name"; n "ddl_force_eof"]);
   (* 375 *) ("drop_statement", [t "DROP"; t "VIEW"; n "exists_opt"; n "table_name"; n "ddl_force_eof"]);
   (* 376 *) ("drop_statement", [t "DROP"; t "DATABASE"; n "exists_opt"; t "ID"]);
   (* 377 *) ("drop_statement", [t "DROP"; t "SCHEMA"; n "exists_opt"; t "ID"]);
   (* 378 *) ("truncate_statement", [t "TRUNCATE"; t "TABLE"; n "table_name"]);
   (* 379 *) ("truncate_statement", [t "TRUNCATE"; n "table_name"]);
   (* 380 *) ("analyze_statement", [t "ANALYZE"; t "TABLE"; n "table_name"]);
   (* 381 *) ("show_statement", [t "SHOW"; t "BINARY"; t "ID"; n "ddl_force_eof"]);
   (* 382 *) ("show_statement", [t "SHOW"; t "CHARACTER"; t "SET"; n "ddl_force_eof"]);
   (* 383 *) ("show_statement", [t "SHOW"; t "CREATE"; t "DATABASE"; n "ddl_force_eof"]);
   (* 384 *) ("show_statement", [t "SHOW"; t "CREATE"; t "ID"; n "ddl_force_eof"]);
   (* 385 *) ("show_statement", [t "SHOW"; t "CREATE"; t "PROCEDURE"; n "ddl_force_eof"]);
   (* 386 *) ("show_statement", [t "SHOW"; t "CREATE"; t "TABLE"; n "ddl_force_eof"]);
   (* 387 *) ("show_statement", [t "SHOW"; t "CREATE"; t "TRIGGER"; n "ddl_force_eof"]);
   (* 388 *) ("show_statement", [t "SHOW"; t "CREATE"; t "VIEW"; n "ddl_force_eof"]);
   (* 389 *) ("show_statement", [t "SHOW"; t "DATABASES"; n "ddl_force_eof"]);
   (* 390 *) ("show_statement", [t "SHOW"; t "INDEX"; n "ddl_force_eof"]);
   (* 391 *) ("show_statement", [t "SHOW"; t "KEYS"; n "ddl_force_eof"]);
   (* 392 *) ("show_statement", [t "SHOW"; t "PROCEDURE"; n "ddl_force_eof"]);
   (* 393 *) ("show_statement", [t "SHOW"; n "show_session_or_global"; t "STATUS"; n "ddl_force_eof"]);
   (* 394 *) ("show_statement", [t "SHOW"; t "TABLE"; n "ddl_force_eof"]);
   (* 395 *) ("show_statement", [t "SHOW"; n "extended_opt"; n "full_opt"; n "tables_or_processlist"; n "from_database_opt"; n "like_or_where_opt"]);
   (* 396 *) ("show_statement", [t "SHOW"; n "show_session_or_global"; t "VARIABLES"; n "ddl_force_eof"]);
   (* 397 *) ("show_statement", [t "SHOW"; t "VINDEXES"]);
   (* 398 *) ("show_statement", [t "SHOW"; t "VINDEXES"; t "ON"; n "table_name"]);
   (* 399 *) ("show_statement", [t "SHOW"; t "VITESS_KEYSPACES"]);
   (* 400 *) ("show_statement", [t "SHOW"; t "VITESS_SHARDS"]);
   (* 401 *) ("show_statement", [t "SHOW"; t "VITESS_TABLETS"]);
   (* 402 *) ("show_statement", [t "SHOW"; t "VSCHEMA_TABLES"]);
   (* 403 *) ("show_statement", [t "SHOW"; t "ID"; n "ddl_force_eof"]);
   (* 404 *) ("tables_or_processlist", [t "TABLES"]);
   (* 405 *) ("tables_or_processlist", [t "PROCESSLIST"]);
   (* 406 *) ("extended_opt", []);
   (* 407 *) ("extended_opt", [t "EXTENDED"]);
   (* 408 *) ("full_opt", []);
   (* 409 *) ("full_opt", [t "FULL"]);
   (* 410 *) ("from_database_opt", []);
   (* 411 *) ("from_database_opt", [t "FROM"; n "table_id"]);
   (* 412 *) ("from_database_opt", [t "IN"; n "table_id"]);
   (* 413 *) ("like_or_where_opt", []);
   (* 414 *) ("like_or_where_opt", [t "LIKE"; t "STRING"]);
   (* 415 *) ("like_or_where_opt", [t "WHERE"; n "expression"]);
   (* 416 *) ("show_session_or_global", []);
   (* 417 *) ("show_session_or_global", [t "SESSION"]);
   (* 418 *) ("show_session_or_global", [t "GLOBAL"]);
   (* 419 *) ("use_statement", [t "USE"; n "table_id"]);
   (* 420 *) ("use_statement", [t "USE"]);
   (* 421 *) ("begin_statement", [t "BEGIN"]);
   (* 422 *) ("begin_statement", [t "START"; t "TRANSACTION"]);
   (* 423 *) ("commit_statement", [t "COMMIT"]);
   (* 424 *) ("rollback_statement", [t "ROLLBACK"]);
   (* 425 *) ("other_statement", [t "DESC"; n "force_eof"]);
   (* 426 *) ("other_statement", [t "DESCRIBE"; n "force_eof"]);
   (* 427 *) ("other_statement", [t "EXPLAIN"; n "force_eof"]);
   (* 428 *) ("other_statement", [t "REPAIR"; n "force_eof"]);
   (* 429 *) ("other_statement", [t "OPTIMIZE"; n "force_eof"]);
   (* 430 *) ("$$430", []);
   (* 431 *) ("comment_opt", [n "$$430"; n "comment_list"]);
   (* 432 *) ("comment_list", []);
   (* 433 *) ("comment_list", [n "comment_list"; t "COMMENT"]);
   (* 434 *) ("union_op", [t "UNION"]);
   (* 435 *) ("union_op", [t "UNION"; t "ALL"]);
   (* 436 *) ("union_op", [t "UNION"; t "DISTINCT"]);
   (* 437 *) ("cache_opt", []);
   (* 438 *) ("cache_opt", [t "SQL_NO_CACHE"]);
   (* 439 *) ("cache_opt", [t "SQL_CACHE"]);
   (* 440 *) ("distinct_opt", []);
   (* 441 *) ("distinct_opt", [t "DISTINCT"]);
   (* 442 *) ("straight_join_opt", []);
   (* 443 *) ("straight_join_opt", [t "STRAIGHT_JOIN"]);
   (* 444 *) ("select_expression_list_opt", []);
   (* 445 *) ("select_expression_list_opt", [n "select_expression_list"]);
   (* 446 *) ("select_expression_list", [n "select_expression"]);
   (* 447 *) ("select_expression_list", [n "select_expression_list"; c ","; n "select_expression"]);
   (* 448 *) ("select_expression", [c "*"]);
   (* 449 *) ("select_expression", [n "expression"; n "as_ci_opt"]);
   (* 450 *) ("select_expression", [n "table_id"; c "."; c "*"]);
   (* 451 *) ("select_expression", [n "table_id"; c "."; n "reserved_table_id"; c "."; c "*"]);
   (* 452 *) ("as_ci_opt", []);
   (* 453 *) ("as_ci_opt", [n "col_alias"]);
   (* 454 *) ("as_ci_opt", [t "AS"; n "col_alias"]);
   (* 455 *) ("col_alias", [n "sql_id"]);
   (* 456 *) ("col_alias", [t "STRING"]);
   (* 457 *) ("from_opt", []);
   (* 458 *) ("from_opt", [t "FROM"; n "table_references"]);
   (* 459 *) ("table_references", [n "table_reference"]);
   (* 460 *) ("table_references", [n "table_references"; c ","; n "table_reference"]);
   (* 461 *) ("table_reference", [n "table_factor"]);
   (* 462 *) ("table_reference", [n "join_table"]);
   (* 463 *) ("table_factor", [n "aliased_table_name"]);
   (* 464 *) ("table_factor", [n "subquery"; n "as_opt"; n "table_id"]);
   (* 465 *) ("table_factor", [n "openb"; n "table_references"; n "closeb"]);
   (* 466 *) ("aliased_table_name", [n "table_name"; n "as_opt_id"; n "index_hint_list"]);
   (* 467 *) ("aliased_table_name", [n "table_name"; t "PARTITION"; n "openb"; n "partition_list"; n "closeb"; n "as_opt_id"; n "index_hint_list"]);
   (* 468 *) ("column_list", [n "sql_id"]);
   (* 469 *) ("column_list", [t "KEY"]);
   (* 470 *) ("column_list", [n "column_list"; c ","; n "sql_id"]);
   (* 471 *) ("partition_list", [n "sql_id"]);
   (* 472 *) ("partition_list", [n "partition_list"; c ","; n "sql_id"]);
   (* 473 *) ("join_table", [n "table_reference"; n "inner_join"; n "table_factor"; n "join_condition_opt"]);
   (* 474 *) ("join_table", [n "table_reference"; n "straight_join"; n "table_factor"; n "on_expression_opt"]);
   (* 475 *) ("join_table", [n "table_reference"; n "outer_join"; n "table_reference"; n "join_condition"]);
   (* 476 *) ("join_table", [n "table_reference"; n "natural_join"; n "table_factor"]);
   (* 477 *) ("join_condition", [t "ON"; n "expression"]);
   (* 478 *) ("join_condition", [t "USING"; c "("; n "column_list"; c ")"]);
   (* 479 *) ("join_condition_opt", []);
   (* 480 *) ("join_condition_opt", [n "join_condition"]);
   (* 481 *) ("on_expression_opt", []);
   (* 482 *) ("on_expression_opt", [t "ON"; n "expression"]);
   (* 483 *) ("as_opt", []);
   (* 484 *) ("as_opt", [t "AS"]);
   (* 485 *) ("as_opt_id", []);
   (* 486 *) ("as_opt_id", [n "table_alias"]);
   (* 487 *) ("as_opt_id", [t "AS"; n "table_alias"]);
   (* 488 *) ("table_alias", [n "table_id"]);
   (* 489 *) ("table_alias", [t "STRING"]);
   (* 490 *) ("inner_join", [t "JOIN"]);
   (* 491 *) ("inner_join", [t "INNER"; t "JOIN"]);
   (* 492 *) ("inner_join", [t "CROSS"; t "JOIN"]);
   (* 493 *) ("straight_join", [t "STRAIGHT_JOIN"]);
   (* 494 *) ("outer_join", [t "LEFT"; t "JOIN"]);
   (* 495 *) ("outer_join", [t "LEFT"; t "OUTER"; t "JOIN"]);
   (* 496 *) ("outer_join", [t "RIGHT"; t "JOIN"]);
   (* 497 *) ("outer_join", [t "RIGHT"; t "OUTER"; t "JOIN"]);
   (* 498 *) ("natural_join", [t "NATURAL"; t "JOIN"]);
   (* 499 *) ("natural_join", [t "NATURAL"; n "outer_join"]);
   (* 500 *) ("into_table_name", [t "INTO"; n "table_name"]);
   (* 501 *) ("into_table_name", [n "table_name"]);
   (* 502 *) ("table_name", [n "table_id"]);
   (* 503 *) ("table_name", [n "table_id"; c "."; n "reserved_table_id"]);
   (* 504 *) ("index_hint_list", []);
   (* 505 *) ("index_hint_list", [t "USE"; t "INDEX"; n "openb"; n "column_list"; n "closeb"]);
   (* 506 *) ("index_hint_list", [t "IGNORE"; t "INDEX"; n "openb"; n "column_list"; n "closeb"]);
   (* 507 *) ("index_hint_list", [t "FORCE"; t "INDEX"; n "openb"; n "column_list"; n "closeb"]);
   (* 508 *) ("where_expression_opt", []);
   (* 509 *) ("where_expression_opt", [t "WHERE"; n "expression"]);
   (* 510 *) ("include_columns_opt", []);
   (* 511 *) ("include_columns_opt", [t "INCLUDE"; c "("; n "column_list"; c ")"]);
   (* 512 *) ("expression", [n "condition"]);
   (* 513 *) ("expression", [n "expression"; t "AND"; n "expression"]);
   (* 514 *) ("expression", [n "expression"; t "OR"; n "expression"]);
   (* 515 *) ("expression", [t "NOT"; n "expression"]);
   (* 516 *) ("expression", [n "expression"; t "IS"; n "is_suffix"]);
   (* 517 *) ("expression", [n "value_expression"]);
   (* 518 *) ("expression", [t "DEFAULT"; n "default_opt"]);
   (* 519 *) ("default_opt", []);
   (* 520 *) ("default_opt", [n "openb"; t "ID"; n "closeb"]);
   (* 521 *) ("boolean_value", [t "TRUE"]);
   (* 522 *) ("boolean_value", [t "FALSE"]);
   (* 523 *) ("condition", [n "value_expression"; n "compare"; n "value_expression"]);
   (* 524 *) ("condition", [n "value_expression"; t "IN"; n "col_tuple"]);
   (* 525 *) ("condition", [n "value_expression"; t "NOT"; t "IN"; n "col_tuple"]);
   (* 526 *) ("condition", [n "value_expression"; t "LIKE"; n "value_expression"; n "like_escape_opt"]);
   (* 527 *) ("condition", [n "value_expression"; t "NOT"; t "LIKE"; n "value_expression"; n "like_escape_opt"]);
   (* 528 *) ("condition", [n "value_expression"; t "REGEXP"; n "value_expression"]);
   (* 529 *) ("condition", [n "value_expression"; t "NOT"; t "REGEXP"; n "value_expression"]);
   (* 530 *) ("condition", [n "value_expression"; t "BETWEEN"; n "value_expression"; t "AND"; n "value_expression"]);
   (* 531 *) ("condition", [n "value_expression"; t "NOT"; t "BETWEEN"; n "value_expression"; t "AND"; n "value_expression"]);
   (* 532 *) ("condition", [t "EXISTS"; n "subquery"]);
   (* 533 *) ("is_suffix", [t "NULL"]);
   (* 534 *) ("is_suffix", [t "NOT"; t "NULL"]);
   (* 535 *) ("is_suffix", [t "TRUE"]);
   (* 536 *) ("is_suffix", [t "NOT"; t "TRUE"]);
   (* 537 *) ("is_suffix", [t "FALSE"]);
   (* 538 *) ("is_suffix", [t "NOT"; t "FALSE"]);
   (* 539 *) ("compare", [c "="]);
   (* 540 *) ("compare", [c "<"]);
   (* 541 *) ("compare", [c ">"]);
   (* 542 *) ("compare", [t "LE"]);
   (* 543 *) ("compare", [t "GE"]);
   (* 544 *) ("compare", [t "NE"]);
   (* 545 *) ("compare", [t "NULL_SAFE_EQUAL"]);
   (* 546 *) ("like_escape_opt", []);
   (* 547 *) ("like_escape_opt", [t "ESCAPE"; n "value_expression"]);
   (* 548 *) ("col_tuple", [n "row_tuple"]);
   (* 549 *) ("col_tuple", [n "subquery"]);
   (* 550 *) ("col_tuple", [t "LIST_ARG"]);
   (* 551 *) ("subquery", [n "openb"; n "select_statement"; n "closeb"]);
   (* 552 *) ("expression_list", [n "expression"]);
   (* 553 *) ("expression_list", [n "expression_list"; c ","; n "expression"]);
   (* 554 *) ("value_expression", [n "value"]);
   (* 555 *) ("value_expression", [n "boolean_value"]);
   (* 556 *) ("value_expression", [n "column_name"]);
   (* 557 *) ("value_expression", [n "tuple_expression"]);
   (* 558 *) ("value_expression", [n "subquery"]);
   (* 559 *) ("value_expression", [n "value_expression"; c "&"; n "value_expression"]);
   (* 560 *) ("value_expression", [n "value_expression"; c "|"; n "value_expression"]);
   (* 561 *) ("value_expression", [n "value_expression"; c "^"; n "value_expression"]);
   (* 562 *) ("value_expression", [n "value_expression"; c "+"; n "value_expression"]);
   (* 563 *) ("value_expression", [n "value_expression"; c "-"; n "value_expression"]);
   (* 564 *) ("value_expression", [n "value_expression"; c "*"; n "value_expression"]);
   (* 565 *) ("value_expression", [n "value_expression"; c "/"; n "value_expression"]);
   (* 566 *) ("value_expression", [n "value_expression"; t "DIV"; n "value_expression"]);
   (* 567 *) ("value_expression", [n "value_expression"; c "%"; n "value_expression"]);
   (* 568 *) ("value_expression", [n "value_expression"; t "MOD"; n "value_expression"]);
   (* 569 *) ("value_expression", [n "value_expression"; t "SHIFT_LEFT"; n "value_expression"]);
   (* 570 *) ("value_expression", [n "value_expression"; t "SHIFT_RIGHT"; n "value_expression"]);
   (* 571 *) ("value_expression", [n "column_name"; t "JSON_EXTRACT_OP"; n "value"]);
   (* 572 *) ("value_expression", [n "column_name"; t "JSON_UNQUOTE_EXTRACT_OP"; n "value"]);
   (* 573 *) ("value_expression", [n "value_expression"; t "COLLATE"; n "charset"]);
   (* 574 *) ("value_expression", [t "BINARY"; n "value_expression"]);
   (* 575 *) ("value_expression", [t "UNDERSCORE_BINARY"; n "value_expression"]);
   (* 576 *) ("value_expression", [c "+"; n "value_expression"]);
   (* 577 *) ("value_expression", [c "-"; n "value_expression"]);
   (* 578 *) ("value_expression", [c "~"; n "value_expression"]);
   (* 579 *) ("value_expression", [c "!"; n "value_expression"]);
   (* 580 *) ("value_expression", [t "INTERVAL"; n "value_expression"; n "sql_id"]);
   (* 581 *) ("value_expression", [n "value_expression"; t "TYPECAST"; n "simple_convert_type"]);
   (* 582 *) ("value_expression", [n "function_call_generic"]);
   (* 583 *) ("value_expression", [n "function_call_keyword"]);
   (* 584 *) ("value_expression", [n "function_call_nonkeyword"]);
   (* 585 *) ("value_expression", [n "function_call_conflict"]);
   (* 586 *) ("function_call_generic", [n "sql_id"; n "openb"; n "select_expression_list_opt"; n "closeb"]);
   (* 587 *) ("function_call_generic", [n "sql_id"; n "openb"; t "DISTINCT"; n "select_expression_list"; n "closeb"]);
   (* 588 *) ("function_call_generic", [n "table_id"; c "."; n "reserved_sql_id"; n "openb"; n "select_expression_list_opt"; n "closeb"]);
   (* 589 *) ("function_call_keyword", [t "LEFT"; n "openb"; n "select_expression_list"; n "closeb"]);
   (* 590 *) ("function_call_keyword", [t "RIGHT"; n "openb"; n "select_expression_list"; n "closeb"]);
   (* 591 *) ("function_call_keyword", [t "CONVERT"; n "openb"; n "expression"; c ","; n "convert_type"; n "closeb"]);
   (* 592 *) ("function_call_keyword", [t "CAST"; n "openb"; n "expression"; t "AS"; n "convert_type"; n "closeb"]);
   (* 593 *) ("function_call_keyword", [t "CONVERT"; n "openb"; n "expression"; t "USING"; n "charset"; n "closeb"]);
   (* 594 *) ("function_call_keyword", [t "SUBSTR"; n "openb"; n "column_name"; c ","; n "value_expression"; n "closeb"]);
   (* 595 *) ("function_call_keyword", [t "SUBSTR"; n "openb"; n "column_name"; c ","; n "value_expression"; c ","; n "value_expression"; n "closeb"]);
   (* 596 *) ("function_call_keyword", [t "SUBSTR"; n "openb"; n "column_name"; t "FROM"; n "value_expression"; t "FOR"; n "value_expression"; n "closeb"]);
   (* 597 *) ("function_call_keyword", [t "SUBSTRING"; n "openb"; n "column_name"; c ","; n "value_expression"; n "closeb"]);
   (* 598 *) ("function_call_keyword", [t "SUBSTRING"; n "openb"; n "column_name"; c ","; n "value_expression"; c ","; n "value_expression"; n "closeb"]);
   (* 599 *) ("function_call_keyword", [t "SUBSTRING"; n "openb"; n "column_name"; t "FROM"; n "value_expression"; t "FOR"; n "value_expression"; n "closeb"]);
   (* 600 *) ("function_call_keyword", [t "MATCH"; n "openb"; n "select_expression_list"; n "closeb"; t "AGAINST"; n "openb"; n "value_expression"; n "match_option"; n "closeb"]);
   (* 601 *) ("function_call_keyword", [t "GROUP_CONCAT"; n "openb"; n "distinct_opt"; n "select_expression_list"; n "order_by_opt"; n "separator_opt"; n "closeb"]);
   (* 602 *) ("function_call_keyword", [t "CASE"; n "expression_opt"; n "when_expression_list"; n "else_expression_opt"; t "END"]);
   (* 603 *) ("function_call_keyword", [t "VALUES"; n "openb"; n "column_name"; n "closeb"]);
   (* 604 *) ("function_call_nonkeyword", [t "CURRENT_TIMESTAMP"; n "func_datetime_precision_opt"]);
   (* 605 *) ("function_call_nonkeyword", [t "UTC_TIMESTAMP"; n "func_datetime_precision_opt"]);
   (* 606 *) ("function_call_nonkeyword", [t "UTC_TIME"; n "func_datetime_precision_opt"]);
   (* 607 *) ("function_call_nonkeyword", [t "UTC_DATE"; n "func_datetime_precision_opt"]);
   (* 608 *) ("function_call_nonkeyword", [t "LOCALTIME"; n "func_datetime_precision_opt"]);
   (* 609 *) ("function_call_nonkeyword", [t "LOCALTIMESTAMP"; n "func_datetime_precision_opt"]);
   (* 610 *) ("function_call_nonkeyword", [t "CURRENT_DATE"; n "func_datetime_precision_opt"]);
   (* 611 *) ("function_call_nonkeyword", [t "CURRENT_TIME"; n "func_datetime_precision_opt"]);
   (* 612 *) ("function_call_nonkeyword", [t "TYPECAST"; n "simple_convert_type"]);
   (* 613 *) ("func_datetime_precision_opt", []);
   (* 614 *) ("func_datetime_precision_opt", [n "openb"; n "closeb"]);
   (* 615 *) ("function_call_conflict", [t "IF"; n "openb"; n "select_expression_list"; n "closeb"]);
   (* 616 *) ("function_call_conflict", [t "DATABASE"; n "openb"; n "select_expression_list_opt"; n "closeb"]);
   (* 617 *) ("function_call_conflict", [t "MOD"; n "openb"; n "select_expression_list"; n "closeb"]);
   (* 618 *) ("function_call_conflict", [t "REPLACE"; n "openb"; n "select_expression_list"; n "closeb"]);
   (* 619 *) ("match_option", []);
   (* 620 *) ("match_option", [t "IN"; t "BOOLEAN"; t "MODE"]);
   (* 621 *) ("match_option", [t "IN"; t "NATURAL"; t "LANGUAGE"; t "MODE"]);
   (* 622 *) ("match_option", [t "IN"; t "NATURAL"; t "LANGUAGE"; t "MODE"; t "WITH"; t "QUERY"; t "EXPANSION"]);
   (* 623 *) ("match_option", [t "WITH"; t "QUERY"; t "EXPANSION"]);
   (* 624 *) ("charset", [t "ID"]);
   (* 625 *) ("charset", [t "STRING"]);
   (* 626 *) ("convert_type", [t "BINARY"; n "length_opt"]);
   (* 627 *) ("convert_type", [t "CHAR"; n "length_opt"; n "charset_opt"]);
   (* 628 *) ("convert_type", [t "CHAR"; n "length_opt"; t "ID"]);
   (* 629 *) ("convert_type", [t "DATE"]);
   (* 630 *) ("convert_type", [t "DATETIME"; n "length_opt"]);
   (* 631 *) ("convert_type", [t "DECIMAL"; n "decimal_length_opt"]);
   (* 632 *) ("convert_type", [t "JSON"]);
   (* 633 *) ("convert_type", [t "JSONB"]);
   (* 634 *) ("convert_type", [t "NCHAR"; n "length_opt"]);
   (* 635 *) ("convert_type", [t "SIGNED"]);
   (* 636 *) ("convert_type", [t "SIGNED"; t "INTEGER"]);
   (* 637 *) ("convert_type", [t "TIME"; n "length_opt"]);
   (* 638 *) ("convert_type", [t "UNSIGNED"]);
   (* 639 *) ("convert_type", [t "UNSIGNED"; t "INTEGER"]);
   (* 640 *) ("simple_convert_type", [t "BINARY"]);
   (* 641 *) ("simple_convert_type", [t "CHARACTER"; t "VARYING"]);
   (* 642 *) ("simple_convert_type", [t "DATE"]);
   (* 643 *) ("simple_convert_type", [t "DATETIME"]);
   (* 644 *) ("simple_convert_type", [n "int_type"]);
   (* 645 *) ("simple_convert_type", [n "bool_type"]);
   (* 646 *) ("simple_convert_type", [t "TEXT"]);
   (* 647 *) ("expression_opt", []);
   (* 648 *) ("expression_opt", [n "expression"]);
   (* 649 *) ("separator_opt", []);
   (* 650 *) ("separator_opt", [t "SEPARATOR"; t "STRING"]);
   (* 651 *) ("when_expression_list", [n "when_expression"]);
   (* 652 *) ("when_expression_list", [n "when_expression_list"; n "when_expression"]);
   (* 653 *) ("when_expression", [t "WHEN"; n "expression"; t "THEN"; n "expression"]);
   (* 654 *) ("else_expression_opt", []);
   (* 655 *) ("else_expression_opt", [t "ELSE"; n "expression"]);
   (* 656 *) ("column_name", [n "sql_id"]);
   (* 657 *) ("column_name", [n "table_id"; c "."; n "reserved_sql_id"]);
   (* 658 *) ("column_name", [n "table_id"; c "."; n "reserved_table_id"; c "."; n "reserved_sql_id"]);
   (* 659 *) ("value", [t "STRING"]);
   (* 660 *) ("value", [t "HEX"]);
   (* 661 *) ("value", [t "BIT_LITERAL"]);
   (* 662 *) ("value", [t "INTEGRAL"]);
   (* 663 *) ("value", [t "FLOAT"]);
   (* 664 *) ("value", [t "HEXNUM"]);
   (* 665 *) ("value", [t "VALUE_ARG"]);
   (* 666 *) ("value", [t "NULL"]);
   (* 667 *) ("num_val", [n "sql_id"]);
   (* 668 *) ("num_val", [t "INTEGRAL"; t "VALUES"]);
   (* 669 *) ("num_val", [t "VALUE_ARG"; t "VALUES"]);
   (* 670 *) ("group_by_opt", []);
   (* 671 *) ("group_by_opt", [t "GROUP"; t "BY"; n "expression_list"]);
   (* 672 *) ("having_opt", []);
   (* 673 *) ("having_opt", [t "HAVING"; n "expression"]);
   (* 674 *) ("order_by_opt", []);
   (* 675 *) ("order_by_opt", [t "ORDER"; t "BY"; n "order_list"]);
   (* 676 *) ("order_list", [n "order"]);
   (* 677 *) ("order_list", [n "order_list"; c ","; n "order"]);
   (* 678 *) ("order", [n "expression"; n "asc_desc_opt"]);
   (* 679 *) ("asc_desc_opt", []);
   (* 680 *) ("asc_desc_opt", [t "ASC"]);
   (* 681 *) ("asc_desc_opt", [t "DESC"]);
   (* 682 *) ("limit_opt", []);
   (* 683 *) ("limit_opt", [t "LIMIT"; n "expression"]);
   (* 684 *) ("limit_opt", [t "LIMIT"; n "expression"; c ","; n "expression"]);
   (* 685 *) ("limit_opt", [t "LIMIT"; n "expression"; t "OFFSET"; n "expression"]);
   (* 686 *) ("lock_opt", []);
   (* 687 *) ("lock_opt", [t "FOR"; t "UPDATE"]);
   (* 688 *) ("lock_opt", [t "LOCK"; t "IN"; t "SHARE"; t "MODE"]);
   (* 689 *) ("insert_data", [t "VALUES"; n "tuple_list"]);
   (* 690 *) ("insert_data", [n "select_statement"]);
   (* 691 *) ("insert_data", [n "openb"; n "select_statement"; n "closeb"]);
   (* 692 *) ("insert_data", [n "openb"; n "ins_column_list"; n "closeb"; t "VALUES"; n "tuple_list"]);
   (* 693 *) ("insert_data", [n "openb"; n "ins_column_list"; n "closeb"; n "select_statement"]);
   (* 694 *) ("insert_data", [n "openb"; n "ins_column_list"; n "closeb"; n "openb"; n "select_statement"; n "closeb"]);
   (* 695 *) ("ins_column_list", [n "sql_id"]);
   (* 696 *) ("ins_column_list", [n "sql_id"; c "."; n "sql_id"]);
   (* 697 *) ("ins_column_list", [n "ins_column_list"; c ","; n "sql_id"]);
   (* 698 *) ("ins_column_list", [n "ins_column_list"; c ","; n "sql_id"; c "."; n "sql_id"]);
   (* 699 *) ("on_dup_opt", []);
   (* 700 *) ("on_dup_opt", [t "ON"; t "DUPLICATE"; t "KEY"; t "UPDATE"; n "update_list"]);
   (* 701 *) ("tuple_list", [n "tuple_or_empty"]);
   (* 702 *) ("tuple_list", [n "tuple_list"; c ","; n "tuple_or_empty"]);
   (* 703 *) ("tuple_or_empty", [n "row_tuple"]);
   (* 704 *) ("tuple_or_empty", [n "openb"; n "closeb"]);
   (* 705 *) ("row_tuple", [n "openb"; n "expression_list"; n "closeb"]);
   (* 706 *) ("tuple_expression", [n "row_tuple"]);
   (* 707 *) ("update_list", [n "update_expression"]);
   (* 708 *) ("update_list", [n "update_list"; c ","; n "update_expression"]);
   (* 709 *) ("update_expression", [n "column_name"; c "="; n "expression"]);
   (* 710 *) ("set_list", [n "set_expression"]);
   (* 711 *) ("set_list", [n "set_list"; c ","; n "set_expression"]);
   (* 712 *) ("set_expression", [n "reserved_sql_id"; c "="; t "ON"]);
   (* 713 *) ("set_expression", [n "reserved_sql_id"; c "="; t "OFF"]);
   (* 714 *) ("set_expression", [n "reserved_sql_id"; c "="; n "expression"]);
   (* 715 *) ("set_expression", [n "charset_or_character_set"; n "charset_value"; n "collate_opt"]);
   (* 716 *) ("charset_or_character_set", [t "CHARSET"]);
   (* 717 *) ("charset_or_character_set", [t "CHARACTER"; t "SET"]);
   (* 718 *) ("charset_or_character_set", [t "NAMES"]);
   (* 719 *) ("charset_value", [n "sql_id"]);
   (* 720 *) ("charset_value", [t "STRING"]);
   (* 721 *) ("charset_value", [t "DEFAULT"]);
   (* 722 *) ("for_from", [t "FOR"]);
   (* 723 *) ("for_from", [t "FROM"]);
   (* 724 *) ("exists_opt", []);
   (* 725 *) ("exists_opt", [t "IF"; t "EXISTS"]);
   (* 726 *) ("not_exists_opt", []);
   (* 727 *) ("not_exists_opt", [t "IF"; t "NOT"; t "EXISTS"]);
   (* 728 *) ("ignore_opt", []);
   (* 729 *) ("ignore_opt", [t "IGNORE"]);
   (* 730 *) ("non_add_drop_or_rename_operation", [t "ALTER"]);
   (* 731 *) ("non_add_drop_or_rename_operation", [t "AUTO_INCREMENT"]);
   (* 732 *) ("non_add_drop_or_rename_operation", [t "CHARACTER"]);
   (* 733 *) ("non_add_drop_or_rename_operation", [t "COMMENT_KEYWORD"]);
   (* 734 *) ("non_add_drop_or_rename_operation", [t "DEFAULT"]);
   (* 735 *) ("non_add_drop_or_rename_operation", [t "ORDER"]);
   (* 736 *) ("non_add_drop_or_rename_operation", [t "CONVERT"]);
   (* 737 *) ("non_add_drop_or_rename_operation", [t "PARTITION"]);
   (* 738 *) ("non_add_drop_or_rename_operation", [t "UNUSED"]);
   (* 739 *) ("non_add_drop_or_rename_operation", [t "ID"]);
   (* 740 *) ("to_opt", []);
   (* 741 *) ("to_opt", [t "TO"]);
   (* 742 *) ("to_opt", [t "AS"]);
   (* 743 *) ("index_opt", [t "INDEX"]);
   (* 744 *) ("index_opt", [t "KEY"]);
   (* 745 *) ("sql_id", [t "ID"]);
   (* 746 *) ("sql_id", [n "non_reserved_keyword"]);
   (* 747 *) ("reserved_sql_id", [n "sql_id"]);
   (* 748 *) ("reserved_sql_id", [n "reserved_keyword"]);
   (* 749 *) ("table_id", [t "ID"]);
   (* 750 *) ("table_id", [n "non_reserved_keyword"]);
   (* 751 *) ("reserved_table_id", [n "table_id"]);
   (* 752 *) ("reserved_table_id", [n "reserved_keyword"]);
   (* 753 *) ("reserved_keyword", [t "ADD"]);
   (* 754 *) ("reserved_keyword", [t "AFTER"]);
   (* 755 *) ("reserved_keyword", [t "ALWAYS"]);
   (* 756 *) ("reserved_keyword", [t "AND"]);
   (* 757 *) ("reserved_keyword", [t "AS"]);
   (* 758 *) ("reserved_keyword", [t "ASC"]);
   (* 759 *) ("reserved_keyword", [t "AUTO_INCREMENT"]);
   (* 760 *) ("reserved_keyword", [t "AUTOINCREMENT"]);
   (* 761 *) ("reserved_keyword", [t "BEFORE"]);
   (* 762 *) ("reserved_keyword", [t "BETWEEN"]);
   (* 763 *) ("reserved_keyword", [t "BINARY"]);
   (* 764 *) ("reserved_keyword", [t "BY"]);
   (* 765 *) ("reserved_keyword", [t "CASE"]);
   (* 766 *) ("reserved_keyword", [t "CLUSTERED"]);
   (* 767 *) ("reserved_keyword", [t "NONCLUSTERED"]);
   (* 768 *) ("reserved_keyword", [t "COLLATE"]);
   (* 769 *) ("reserved_keyword", [t "CONVERT"]);
   (* 770 *) ("reserved_keyword", [t "CREATE"]);
   (* 771 *) ("reserved_keyword", [t "CROSS"]);
   (* 772 *) ("reserved_keyword", [t "CURRENT_DATE"]);
   (* 773 *) ("reserved_keyword", [t "CURRENT_TIME"]);
   (* 774 *) ("reserved_keyword", [t "CURRENT_TIMESTAMP"]);
   (* 775 *) ("reserved_keyword", [t "SUBSTR"]);
   (* 776 *) ("reserved_keyword", [t "SUBSTRING"]);
   (* 777 *) ("reserved_keyword", [t "DATABASE"]);
   (* 778 *) ("reserved_keyword", [t "DATABASES"]);
   (* 779 *) ("reserved_keyword", [t "DEFAULT"]);
   (* 780 *) ("reserved_keyword", [t "DELETE"]);
   (* 781 *) ("reserved_keyword", [t "DESC"]);
   (* 782 *) ("reserved_keyword", [t "DESCRIBE"]);
   (* 783 *) ("reserved_keyword", [t "DISTINCT"]);
   (* 784 *) ("reserved_keyword", [t "DIV"]);
   (* 785 *) ("reserved_keyword", [t "DROP"]);
   (* 786 *) ("reserved_keyword", [t "EACH"]);
   (* 787 *) ("reserved_keyword", [t "ELSE"]);
   (* 788 *) ("reserved_keyword", [t "END"]);
   (* 789 *) ("reserved_keyword", [t "ESCAPE"]);
   (* 790 *) ("reserved_keyword", [t "EXISTS"]);
   (* 791 *) ("reserved_keyword", [t "EXPLAIN"]);
   (* 792 *) ("reserved_keyword", [t "FALSE"]);
   (* 793 *) ("reserved_keyword", [t "FOR"]);
   (* 794 *) ("reserved_keyword", [t "FORCE"]);
   (* 795 *) ("reserved_keyword", [t "FOREIGN"]);
   (* 796 *) ("reserved_keyword", [t "FROM"]);
   (* 797 *) ("reserved_keyword", [t "GENERATED"]);
   (* 798 *) ("reserved_keyword", [t "GROUP"]);
   (* 799 *) ("reserved_keyword", [t "HAVING"]);
   (* 800 *) ("reserved_keyword", [t "IDENTITY"]);
   (* 801 *) ("reserved_keyword", [t "IF"]);
   (* 802 *) ("reserved_keyword", [t "IGNORE"]);
   (* 803 *) ("reserved_keyword", [t "IN"]);
   (* 804 *) ("reserved_keyword", [t "INCLUDE"]);
   (* 805 *) ("reserved_keyword", [t "INDEX"]);
   (* 806 *) ("reserved_keyword", [t "INNER"]);
   (* 807 *) ("reserved_keyword", [t "INSERT"]);
   (* 808 *) ("reserved_keyword", [t "INTERVAL"]);
   (* 809 *) ("reserved_keyword", [t "INTO"]);
   (* 810 *) ("reserved_keyword", [t "IS"]);
   (* 811 *) ("reserved_keyword", [t "JOIN"]);
   (* 812 *) ("reserved_keyword", [t "KEY"]);
   (* 813 *) ("reserved_keyword", [t "LEFT"]);
   (* 814 *) ("reserved_keyword", [t "LIKE"]);
   (* 815 *) ("reserved_keyword", [t "LIMIT"]);
   (* 816 *) ("reserved_keyword", [t "LOCALTIME"]);
   (* 817 *) ("reserved_keyword", [t "LOCALTIMESTAMP"]);
   (* 818 *) ("reserved_keyword", [t "LOCK"]);
   (* 819 *) ("reserved_keyword", [t "MATCH"]);
   (* 820 *) ("reserved_keyword", [t "MAXVALUE"]);
   (* 821 *) ("reserved_keyword", [t "MOD"]);
   (* 822 *) ("reserved_keyword", [t "NATURAL"]);
   (* 823 *) ("reserved_keyword", [t "NEXT"]);
   (* 824 *) ("reserved_keyword", [t "NOT"]);
   (* 825 *) ("reserved_keyword", [t "NULL"]);
   (* 826 *) ("reserved_keyword", [t "ON"]);
   (* 827 *) ("reserved_keyword", [t "ONLY"]);
   (* 828 *) ("reserved_keyword", [t "OR"]);
   (* 829 *) ("reserved_keyword", [t "ORDER"]);
   (* 830 *) ("reserved_keyword", [t "OUTER"]);
   (* 831 *) ("reserved_keyword", [t "POLICY"]);
   (* 832 *) ("reserved_keyword", [t "REGEXP"]);
   (* 833 *) ("reserved_keyword", [t "RENAME"]);
   (* 834 *) ("reserved_keyword", [t "REPLACE"]);
   (* 835 *) ("reserved_keyword", [t "RIGHT"]);
   (* 836 *) ("reserved_keyword", [t "ROW"]);
   (* 837 *) ("reserved_keyword", [t "SCHEMA"]);
   (* 838 *) ("reserved_keyword", [t "SELECT"]);
   (* 839 *) ("reserved_keyword", [t "SEPARATOR"]);
   (* 840 *) ("reserved_keyword", [t "SET"]);
   (* 841 *) ("reserved_keyword", [t "SHOW"]);
   (* 842 *) ("reserved_keyword", [t "STRAIGHT_JOIN"]);
   (* 843 *) ("reserved_keyword", [t "TABLE"]);
   (* 844 *) ("reserved_keyword", [t "TABLES"]);
   (* 845 *) ("reserved_keyword", [t "THEN"]);
   (* 846 *) ("reserved_keyword", [t "TO"]);
   (* 847 *) ("reserved_keyword", [t "TRUE"]);
   (* 848 *) ("reserved_keyword", [t "UNION"]);
   (* 849 *) ("reserved_keyword", [t "UNIQUE"]);
   (* 850 *) ("reserved_keyword", [t "UPDATE"]);
   (* 851 *) ("reserved_keyword", [t "USE"]);
   (* 852 *) ("reserved_keyword", [t "USING"]);
   (* 853 *) ("reserved_keyword", [t "UTC_DATE"]);
   (* 854 *) ("reserved_keyword", [t "UTC_TIME"]);
   (* 855 *) ("reserved_keyword", [t "UTC_TIMESTAMP"]);
   (* 856 *) ("reserved_keyword", [t "VALUES"]);
   (* 857 *) ("reserved_keyword", [t "WHEN"]);
   (* 858 *) ("reserved_keyword", [t "WHERE"]);
   (* 859 *) ("reserved_keyword", [t "OFF"]);
   (* 860 *) ("non_reserved_keyword", [t "ACTION"]);
   (* 861 *) ("non_reserved_keyword", [t "AGAINST"]);
   (* 862 *) ("non_reserved_keyword", [t "ALL"]);
   (* 863 *) ("non_reserved_keyword", [t "BEGIN"]);
   (* 864 *) ("non_reserved_keyword", [t "BIGINT"]);
   (* 865 *) ("non_reserved_keyword", [t "BIGSERIAL"]);
   (* 866 *) ("non_reserved_keyword", [t "BIT"]);
   (* 867 *) ("non_reserved_keyword", [t "BLOB"]);
   (* 868 *) ("non_reserved_keyword", [t "BOOL"]);
   (* 869 *) ("non_reserved_keyword", [t "BOOLEAN"]);
   (* 870 *) ("non_reserved_keyword", [t "CASCADE"]);
   (* 871 *) ("non_reserved_keyword", [t "CHAR"]);
   (* 872 *) ("non_reserved_keyword", [t "CHARACTER"]);
   (* 873 *) ("non_reserved_keyword", [t "CHARSET"]);
   (* 874 *) ("non_reserved_keyword", [t "CHECK"]);
   (* 875 *) ("non_reserved_keyword", [t "COMMENT_KEYWORD"]);
   (* 876 *) ("non_reserved_keyword", [t "COMMIT"]);
   (* 877 *) ("non_reserved_keyword", [t "COMMITTED"]);
   (* 878 *) ("non_reserved_keyword", [t "CONSTRAINT"]);
   (* 879 *) ("non_reserved_keyword", [t "CURRENT_USER"]);
   (* 880 *) ("non_reserved_keyword", [t "DATE"]);
   (* 881 *) ("non_reserved_keyword", [t "DATETIME"]);
   (* 882 *) ("non_reserved_keyword", [t "DATETIME2"]);
   (* 883 *) ("non_reserved_keyword", [t "DATETIMEOFFSET"]);
   (* 884 *) ("non_reserved_keyword", [t "DECIMAL"]);
   (* 885 *) ("non_reserved_keyword", [t "DOUBLE"]);
   (* 886 *) ("non_reserved_keyword", [t "DUPLICATE"]);
   (* 887 *) ("non_reserved_keyword", [t "ENUM"]);
   (* 888 *) ("non_reserved_keyword", [t "EXPANSION"]);
   (* 889 *) ("non_reserved_keyword", [t "FLOAT_TYPE"]);
   (* 890 *) ("non_reserved_keyword", [t "FULLTEXT"]);
   (* 891 *) ("non_reserved_keyword", [t "GEOMETRY"]);
   (* 892 *) ("non_reserved_keyword", [t "GEOMETRYCOLLECTION"]);
   (* 893 *) ("non_reserved_keyword", [t "GETDATE"]);
   (* 894 *) ("non_reserved_keyword", [t "GLOBAL"]);
   (* 895 *) ("non_reserved_keyword", [t "INHERIT"]);
   (* 896 *) ("non_reserved_keyword", [t "INT"]);
   (* 897 *) ("non_reserved_keyword", [t "INTEGER"]);
   (* 898 *) ("non_reserved_keyword", [t "ISOLATION"]);
   (* 899 *) ("non_reserved_keyword", [t "JSON"]);
   (* 900 *) ("non_reserved_keyword", [t "KEYS"]);
   (* 901 *) ("non_reserved_keyword", [t "KEY_BLOCK_SIZE"]);
   (* 902 *) ("non_reserved_keyword", [t "LANGUAGE"]);
   (* 903 *) ("non_reserved_keyword", [t "LAST_INSERT_ID"]);
   (* 904 *) ("non_reserved_keyword", [t "LESS"]);
   (* 905 *) ("non_reserved_keyword", [t "LEVEL"]);
   (* 906 *) ("non_reserved_keyword", [t "LINESTRING"]);
   (* 907 *) ("non_reserved_keyword", [t "LONGBLOB"]);
   (* 908 *) ("non_reserved_keyword", [t "LONGTEXT"]);
   (* 909 *) ("non_reserved_keyword", [t "MEDIUMBLOB"]);
   (* 910 *) ("non_reserved_keyword", [t "MEDIUMINT"]);
   (* 911 *) ("non_reserved_keyword", [t "MEDIUMTEXT"]);
   (* 912 *) ("non_reserved_keyword", [t "MODE"]);
   (* 913 *) ("non_reserved_keyword", [t "MONEY"]);
   (* 914 *) ("non_reserved_keyword", [t "MULTILINESTRING"]);
   (* 915 *) ("non_reserved_keyword", [t "MULTIPOINT"]);
   (* 916 *) ("non_reserved_keyword", [t "MULTIPOLYGON"]);
   (* 917 *) ("non_reserved_keyword", [t "NAMES"]);
   (* 918 *) ("non_reserved_keyword", [t "NCHAR"]);
   (* 919 *) ("non_reserved_keyword", [t "NO"]);
   (* 920 *) ("non_reserved_keyword", [t "NOW"]);
   (* 921 *) ("non_reserved_keyword", [t "NTEXT"]);
   (* 922 *) ("non_reserved_keyword", [t "NUMERIC"]);
   (* 923 *) ("non_reserved_keyword", [t "NVARCHAR"]);
   (* 924 *) ("non_reserved_keyword", [t "OFFSET"]);
   (* 925 *) ("non_reserved_keyword", [t "OPTIMIZE"]);
   (* 926 *) ("non_reserved_keyword", [t "PARTITION"]);
   (* 927 *) ("non_reserved_keyword", [t "POINT"]);
   (* 928 *) ("non_reserved_keyword", [t "POLYGON"]);
   (* 929 *) ("non_reserved_keyword", [t "PRECISION"]);
   (* 930 *) ("non_reserved_keyword", [t "PERMISSIVE"]);
   (* 931 *) ("non_reserved_keyword", [t "PRIMARY"]);
   (* 932 *) ("non_reserved_keyword", [t "PROCEDURE"]);
   (* 933 *) ("non_reserved_keyword", [t "QUERY"]);
   (* 934 *) ("non_reserved_keyword", [t "READ"]);
   (* 935 *) ("non_reserved_keyword", [t "REAL"]);
   (* 936 *) ("non_reserved_keyword", [t "REORGANIZE"]);
   (* 937 *) ("non_reserved_keyword", [t "RESTRICTIVE"]);
   (* 938 *) ("non_reserved_keyword", [t "REPAIR"]);
   (* 939 *) ("non_reserved_keyword", [t "REPEATABLE"]);
   (* 940 *) ("non_reserved_keyword", [t "REPLICATION"]);
   (* 941 *) ("non_reserved_keyword", [t "RESTRICT"]);
   (* 942 *) ("non_reserved_keyword", [t "ROLLBACK"]);
   (* 943 *) ("non_reserved_keyword", [t "SESSION"]);
   (* 944 *) ("non_reserved_keyword", [t "SERIAL"]);
   (* 945 *) ("non_reserved_keyword", [t "SERIALIZABLE"]);
   (* 946 *) ("non_reserved_keyword", [t "SHARE"]);
   (* 947 *) ("non_reserved_keyword", [t "SIGNED"]);
   (* 948 *) ("non_reserved_keyword", [t "SMALLDATETIME"]);
   (* 949 *) ("non_reserved_keyword", [t "SMALLINT"]);
   (* 950 *) ("non_reserved_keyword", [t "SMALLMONEY"]);
   (* 951 *) ("non_reserved_keyword", [t "SMALLSERIAL"]);
   (* 952 *) ("non_reserved_keyword", [t "SPATIAL"]);
   (* 953 *) ("non_reserved_keyword", [t "START"]);
   (* 954 *) ("non_reserved_keyword", [t "STATUS"]);
   (* 955 *) ("non_reserved_keyword", [t "TEXT"]);
   (* 956 *) ("non_reserved_keyword", [t "THAN"]);
   (* 957 *) ("non_reserved_keyword", [t "TIME"]);
   (* 958 *) ("non_reserved_keyword", [t "TIMESTAMP"]);
   (* 959 *) ("non_reserved_keyword", [t "TINYBLOB"]);
   (* 960 *) ("non_reserved_keyword", [t "TINYINT"]);
   (* 961 *) ("non_reserved_keyword", [t "TINYTEXT"]);
   (* 962 *) ("non_reserved_keyword", [t "TRANSACTION"]);
   (* 963 *) ("non_reserved_keyword", [t "TRIGGER"]);
   (* 964 *) ("non_reserved_keyword", [t "TRUNCATE"]);
   (* 965 *) ("non_reserved_keyword", [t "UNCOMMITTED"]);
   (* 966 *) ("non_reserved_keyword", [t "UNSIGNED"]);
   (* 967 *) ("non_reserved_keyword", [t "UNUSED"]);
   (* 968 *) ("non_reserved_keyword", [t "UUID"]);
   (* 969 *) ("non_reserved_keyword", [t "VARBINARY"]);
   (* 970 *) ("non_reserved_keyword", [t "VARCHAR"]);
   (* 971 *) ("non_reserved_keyword", [t "VARYING"]);
   (* 972 *) ("non_reserved_keyword", [t "VARIABLES"]);
   (* 973 *) ("non_reserved_keyword", [t "VIEW"]);
   (* 974 *) ("non_reserved_keyword", [t "VINDEX"]);
   (* 975 *) ("non_reserved_keyword", [t "VINDEXES"]);
   (* 976 *) ("non_reserved_keyword", [t "VITESS_KEYSPACES"]);
   (* 977 *) ("non_reserved_keyword", [t "VITESS_SHARDS"]);
   (* 978 *) ("non_reserved_keyword", [t "VITESS_TABLETS"]);
   (* 979 *) ("non_reserved_keyword", [t "VSCHEMA_TABLES"]);
   (* 980 *) ("non_reserved_keyword", [t "WITH"]);
   (* 981 *) ("non_reserved_keyword", [t "WITHOUT"]);
   (* 982 *) ("non_reserved_keyword", [t "WRITE"]);
   (* 983 *) ("non_reserved_keyword", [t "YEAR"]);
   (* 984 *) ("non_reserved_keyword", [t "ZEROFILL"]);
   (* 985 *) ("non_reserved_keyword", [t "ZONE"]);
   (* 986 *) ("non_reserved_keyword", [t "PAD_INDEX"]);
   (* 987 *) ("non_reserved_keyword", [t "FILLFACTOR"]);
   (* 988 *) ("non_reserved_keyword", [t "IGNORE_DUP_KEY"]);
   (* 989 *) ("non_reserved_keyword", [t "STATISTICS_NORECOMPUTE"]);
   (* 990 *) ("non_reserved_keyword", [t "STATISTICS_INCREMENTAL"]);
   (* 991 *) ("non_reserved_keyword", [t "ALLOW_ROW_LOCKS"]);
   (* 992 *) ("non_reserved_keyword", [t "ALLOW_PAGE_LOCKS"]);
   (* 993 *) ("openb", [c "("]);
   (* 994 *) ("closeb", [c ")"]);
   (* 995 *) ("force_eof", []);
   (* 996 *) ("ddl_force_eof", []);
   (* 997 *) ("ddl_force_eof", [n "openb"]);
   (* 998 *) ("ddl_force_eof", [n "reserved_sql_id"]) ].

(** The production with a number. *)
Definition production (i : Z) : option (string * list symbol) :=
  if (i <? 0)%Z then None else nth_error productions (Z.to_nat i).

(** [derives x l ps v]: the tokens [l] are an [x], whose value is [v]; [ps] are the productions
    used, in the order of their last symbols. *)
Inductive derives : symbol -> list (kind * string) -> list Z -> yval -> Prop :=
| d_token k s : derives (Terminal k) [(k, s)] [] (YStr s)
| d_production i name rhs l ps args v :
    production i = Some (name, rhs) -> derive rhs l ps args -> act i args = Value v ->
    derives (Nonterminal name) l (ps ++ [i]) v
with derive : list symbol -> list (kind * string) -> list Z -> list yval -> Prop :=
| d_nil : derive [] [] [] []
| d_cons x xs l l' ps ps' v vs : derives x l ps v -> derive xs l' ps' vs ->
    derive (x :: xs) (l ++ l') (ps ++ ps') (v :: vs).
Scheme derives_mut := Induction for derives Sort Prop
with derive_mut := Induction for derive Sort Prop.

(** The productions that tell the tokenizer to skip the rest of the text. *)
Definition skips (i : Z) : Prop := (995 <= i <= 998)%Z.
