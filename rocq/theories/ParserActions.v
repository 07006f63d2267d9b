(** The actions of the SQL grammar, /repo/sqlparser/parser.y: what the reduction by each
    production computes, with the production and its line.  Productions without an action give
    the value of their first symbol.  What the actions do to the tokenizer is in Parser.v. *)
From Coq Require Import String Ascii List ZArith Bool.
From Verif Require Import GoStr Numerals Formatter SqlAst ParserValues.
Import ListNotations.
Local Open Scope string_scope.
Local Open Scope list_scope.

Definition first_value (a : list yval) : reduced :=
  Value match a with v :: _ => v | [] => YNone end.

Definition statements (p : positive) (args : list yval) : reduced :=
  match p with
  (* 349 any_command: command semicolon_opt *)
  | 1 => get as_stmt 0 args (fun s => Value (YStmt s))
  (* 354 semicolon_opt: (empty) *)
  | 2 => Value (YNone)
  (* 355 semicolon_opt: ';' *)
  | 3 => Value (YNone)
  (* 359 command: select_statement *)
  | 4 => get as_text 0 args (fun s => Value (YText s))
  (* 382 select_statement: base_select order_by_opt limit_opt lock_opt *)
  | 22 => get as_text 0 args (fun s => get as_texts 1 args (fun o => get as_text 2 args (fun l => get as_str 3 args (fun k => Value (YText (cat [s; order_by o; l; lit k]))))))
  (* 390 select_statement: union_lhs union_op union_rhs order_by_opt limit_opt lock_opt *)
  | 23 => get as_text 0 args (fun l => get as_str 1 args (fun u => get as_text 2 args (fun r => get as_texts 3 args (fun o => get as_text 4 args (fun m => get as_str 5 args (fun k => Value (YText (cat [l; lit (" " ++ u ++ " "); r; order_by o; m; lit k]))))))))
  (* 394 select_statement: SELECT comment_opt cache_opt NEXT num_val for_from table_name *)
  | 24 => get as_strs 1 args (fun c => get as_str 2 args (fun h => get as_expr 4 args (fun e => get as_table 6 args (fun f => Value (YText (cat [lit ("select " ++ comments c ++ h ++ "next "); x_text e; lit (" values from " ++ format_table f)]))))))
  (* 400 stream_statement: STREAM comment_opt select_expression FROM table_name *)
  | 25 => get as_strs 1 args (fun c => get as_text 2 args (fun e => get as_table 4 args (fun f => Value (YText (cat [lit ("stream " ++ comments c); e; lit (" from " ++ format_table f)])))))
  (* 407 base_select: SELECT comment_opt cache_opt distinct_opt straight_join_opt select_expression_list from_opt where_expression_opt group_by_opt having_opt *)
  | 26 => get as_strs 1 args (fun c => get as_str 2 args (fun h => get as_str 3 args (fun d => get as_str 4 args (fun i => get as_texts 5 args (fun e => get as_texts 6 args (fun f => get as_expr_opt 7 args (fun w => get as_exprs 8 args (fun g => get as_expr_opt 9 args (fun v => Value (YText (cat [lit ("select " ++ comments c ++ h ++ d ++ i); commas e; lit " from "; commas f; where_of "where" w; group_by g; where_of "having" v])))))))))))
  (* 413 union_lhs: select_statement *)
  | 27 => get as_text 0 args (fun s => Value (YText s))
  (* 417 union_lhs: openb select_statement closeb *)
  | 28 => get as_text 1 args (fun s => Value (YText (parens s)))
  (* 423 union_rhs: base_select *)
  | 29 => get as_text 0 args (fun s => Value (YText s))
  (* 427 union_rhs: openb select_statement closeb *)
  | 30 => get as_text 1 args (fun s => Value (YText (parens s)))
  (* 434 insert_statement: insert_or_replace comment_opt ignore_opt into_table_name opt_partition_clause insert_data on_dup_opt *)
  | 31 => get as_str 0 args (fun n => get as_strs 1 args (fun c => get as_str 2 args (fun g => get as_table 3 args (fun t => get as_strs 4 args (fun p => get as_insert 5 args (fun d => get as_updates 6 args (fun u => Value (YText (insert_text n c g t p (fst d) (snd d) u)))))))))
  (* 446 insert_statement: insert_or_replace comment_opt ignore_opt into_table_name opt_partition_clause SET update_list on_dup_opt *)
  | 32 => get as_str 0 args (fun n => get as_strs 1 args (fun c => get as_str 2 args (fun g => get as_table 3 args (fun t => get as_strs 4 args (fun p => get as_updates 6 args (fun l => get as_updates 7 args (fun u => Value (YText (insert_text n c g t p (map up_name l) (cat [lit "values "; parens (commas (map up_value l))]) u)))))))))
  (* 458 insert_or_replace: INSERT *)
  | 33 => Value (YStr "insert")
  (* 462 insert_or_replace: REPLACE *)
  | 34 => Value (YStr "replace")
  (* 468 update_statement: UPDATE comment_opt table_references SET update_list where_expression_opt order_by_opt limit_opt *)
  | 35 => get as_strs 1 args (fun c => get as_texts 2 args (fun t => get as_updates 4 args (fun u => get as_expr_opt 5 args (fun w => get as_texts 6 args (fun o => get as_text 7 args (fun m => Value (YText (cat [lit ("update " ++ comments c); commas t; lit " set "; updates u; where_of "where" w; order_by o; m]))))))))
  (* 474 delete_statement: DELETE comment_opt FROM table_name opt_partition_clause where_expression_opt order_by_opt limit_opt *)
  | 36 => get as_strs 1 args (fun c => get as_table 3 args (fun t => get as_strs 4 args (fun p => get as_expr_opt 5 args (fun w => get as_texts 6 args (fun o => get as_text 7 args (fun m => Value (YText (cat [lit ("delete " ++ comments c ++ "from " ++ format_table t ++ partitions p); where_of "where" w; order_by o; m]))))))))
  (* 478 delete_statement: DELETE comment_opt FROM table_name_list USING table_references where_expression_opt *)
  | 37 => get as_strs 1 args (fun c => get as_tables 3 args (fun g => get as_texts 5 args (fun t => get as_expr_opt 6 args (fun w => Value (YText (cat [lit ("delete " ++ comments c ++ join ", " (map format_table g) ++ " from "); commas t; where_of "where" w]))))))
  (* 482 delete_statement: DELETE comment_opt table_name_list from_or_using table_references where_expression_opt *)
  | 38 => get as_strs 1 args (fun c => get as_tables 2 args (fun g => get as_texts 4 args (fun t => get as_expr_opt 5 args (fun w => Value (YText (cat [lit ("delete " ++ comments c ++ join ", " (map format_table g) ++ " from "); commas t; where_of "where" w]))))))
  (* 487 from_or_using: FROM *)
  | 39 => Value (YNone)
  (* 488 from_or_using: USING *)
  | 40 => Value (YNone)
  (* 492 table_name_list: table_name *)
  | 41 => get as_table 0 args (fun t => Value (YTables [t]))
  (* 496 table_name_list: table_name_list ',' table_name *)
  | 42 => get as_tables 0 args (fun l => get as_table 2 args (fun t => Value (YTables (l ++ [t]))))
  (* 501 opt_partition_clause: (empty) *)
  | 43 => Value (YStrs [])
  (* 505 opt_partition_clause: PARTITION openb partition_list closeb *)
  | 44 => get as_strs 2 args (fun l => Value (YStrs l))
  (* 511 set_statement: SET comment_opt set_list *)
  | 45 => Value (YStmt SOther)
  (* 515 set_statement: SET comment_opt set_session_or_global set_list *)
  | 46 => Value (YStmt SOther)
  (* 519 set_statement: SET comment_opt set_session_or_global TRANSACTION transaction_chars *)
  | 47 => Value (YStmt SOther)
  (* 523 set_statement: SET comment_opt TRANSACTION transaction_chars *)
  | 48 => Value (YStmt SOther)
  (* 529 transaction_chars: transaction_char *)
  | 49 => Value (YNone)
  (* 533 transaction_chars: transaction_chars ',' transaction_char *)
  | 50 => Value (YNone)
  (* 539 transaction_char: ISOLATION LEVEL isolation_level *)
  | 51 => Value (YNone)
  (* 543 transaction_char: READ WRITE *)
  | 52 => Value (YNone)
  (* 547 transaction_char: READ ONLY *)
  | 53 => Value (YNone)
  (* 553 isolation_level: REPEATABLE READ *)
  | 54 => Value (YNone)
  (* 557 isolation_level: READ COMMITTED *)
  | 55 => Value (YNone)
  (* 561 isolation_level: READ UNCOMMITTED *)
  | 56 => Value (YNone)
  (* 565 isolation_level: SERIALIZABLE *)
  | 57 => Value (YNone)
  (* 571 set_session_or_global: SESSION *)
  | 58 => Value (YStr "session")
  (* 575 set_session_or_global: GLOBAL *)
  | 59 => Value (YStr "global")
  | _ => first_value args
  end%positive.

Definition definitions (p : positive) (args : list yval) : reduced :=
  match p with
  (* 581 create_statement: create_table_prefix table_spec *)
  | 60 => get as_stmt 0 args (fun d => get as_spec 1 args (fun t => Value (YStmt (with_spec t d))))
  (* 586 create_statement: CREATE unique_opt clustered_opt INDEX sql_id ON table_name '(' index_column_list ')' include_columns_opt where_expression_opt index_option_opt index_partition_opt *)
  | 61 => get as_bool 1 args (fun u => get as_bool 2 args (fun c => get as_str 4 args (fun n => get as_table 6 args (fun t => get as_index_columns 8 args (fun l => get as_strs 10 args (fun i => get as_expr_opt 11 args (fun w => get as_index_options 12 args (fun o => get as_index_partition 13 args (fun p => Value (YStmt (SDdl (mkDDL "create index" t t None (Some (mkIndexSpec n u c i (where_clause_of w) o p)) l None None None None))))))))))))
  (* 606 create_statement: CREATE unique_opt clustered_opt INDEX sql_id USING sql_id ON table_name '(' index_column_list ')' index_option_opt *)
  | 62 => get as_bool 1 args (fun u => get as_str 4 args (fun n => get as_table 8 args (fun t => get as_index_columns 10 args (fun l => get as_index_options 12 args (fun o => Value (YStmt (SDdl (mkDDL "create index" t t None (Some (mkIndexSpec n u false [] None o None)) l None None None None))))))))
  (* 622 create_statement: CREATE unique_opt clustered_opt INDEX sql_id ON table_name USING sql_id '(' index_column_list ')' where_expression_opt index_option_opt *)
  | 63 => get as_bool 1 args (fun u => get as_str 4 args (fun n => get as_table 6 args (fun t => get as_index_columns 10 args (fun l => get as_expr_opt 12 args (fun w => Value (YStmt (SDdl (mkDDL "create index" t t None (Some (mkIndexSpec n u false [] (where_clause_of w) [] None)) l None None None None))))))))
  (* 637 create_statement: CREATE or_replace_opt VIEW table_name AS select_statement *)
  | 64 => get as_table 3 args (fun t => get as_text 5 args (fun s => Value (YStmt (SDdl (mkDDL "create view" no_table no_table None None [] None None (Some (mkSqlView (to_view_name t) s)) None)))))
  (* 645 create_statement: CREATE VINDEX sql_id vindex_type_opt vindex_params_opt *)
  | 65 => Value (YStmt (SDdl (mkDDL "create vindex" no_table no_table None None [] None None None None)))
  (* 653 create_statement: CREATE DATABASE not_exists_opt ID ddl_force_eof *)
  | 66 => Value (YStmt SOther)
  (* 657 create_statement: CREATE SCHEMA not_exists_opt ID ddl_force_eof *)
  | 67 => Value (YStmt SOther)
  (* 661 create_statement: CREATE POLICY sql_id ON table_name policy_as_opt policy_for_opt TO sql_id_list using_opt with_check_opt *)
  | 68 => get as_str 2 args (fun n => get as_table 4 args (fun t => get as_str 5 args (fun p => get as_str 6 args (fun f => get as_strs 8 args (fun r => get as_expr_opt 9 args (fun u => get as_expr_opt 10 args (fun w => Value (YStmt (SDdl (mkDDL "create policy" t no_table None None [] None (Some (mkSqlPolicy n p f r (where_clause_of u) (where_clause_of w))) None None))))))))))
  (* 672 create_statement: CREATE TRIGGER sql_id trigger_time trigger_event ON table_name FOR EACH ROW trigger_statement *)
  | 69 => get as_str 2 args (fun n => get as_str 3 args (fun tm => get as_str 4 args (fun ev => get as_table 6 args (fun t => get as_text 10 args (fun b => Value (YStmt (SDdl (mkDDL "create trigger" no_table no_table None None [] None None None (Some (mkSqlTrigger n t tm ev [b]))))))))))
  (* 682 create_statement: CREATE TRIGGER sql_id ON table_name trigger_time trigger_event AS trigger_body *)
  | 70 => get as_str 2 args (fun n => get as_table 4 args (fun t => get as_str 5 args (fun tm => get as_str 6 args (fun ev => get as_texts 8 args (fun b => Value (YStmt (SDdl (mkDDL "create trigger" no_table no_table None None [] None None None (Some (mkSqlTrigger n t tm ev b))))))))))
  (* 694 trigger_time: BEFORE *)
  | 71 => get as_str 0 args (fun s => Value (YStr s))
  (* 698 trigger_time: AFTER *)
  | 72 => get as_str 0 args (fun s => Value (YStr s))
  (* 704 trigger_event: INSERT *)
  | 73 => get as_str 0 args (fun s => Value (YStr s))
  (* 708 trigger_event: UPDATE *)
  | 74 => get as_str 0 args (fun s => Value (YStr s))
  (* 712 trigger_event: DELETE *)
  | 75 => get as_str 0 args (fun s => Value (YStr s))
  (* 718 trigger_body: trigger_statement *)
  | 76 => get as_text 0 args (fun s => Value (YTexts [s]))
  (* 722 trigger_body: trigger_body trigger_statement *)
  | 77 => get as_texts 0 args (fun l => get as_text 1 args (fun s => Value (YTexts (l ++ [s]))))
  (* 728 trigger_statement: insert_statement *)
  | 78 => get as_text 0 args (fun s => Value (YText s))
  (* 735 policy_as_opt: (empty) *)
  | 81 => Value (YStr "")
  (* 739 policy_as_opt: AS PERMISSIVE *)
  | 82 => get as_str 1 args (fun s => Value (YStr s))
  (* 743 policy_as_opt: AS RESTRICTIVE *)
  | 83 => get as_str 1 args (fun s => Value (YStr s))
  (* 748 policy_for_opt: (empty) *)
  | 84 => Value (YStr "")
  (* 752 policy_for_opt: FOR ALL *)
  | 85 => get as_str 1 args (fun s => Value (YStr s))
  (* 756 policy_for_opt: FOR SELECT *)
  | 86 => get as_str 1 args (fun s => Value (YStr s))
  (* 760 policy_for_opt: FOR INSERT *)
  | 87 => get as_str 1 args (fun s => Value (YStr s))
  (* 764 policy_for_opt: FOR UPDATE *)
  | 88 => get as_str 1 args (fun s => Value (YStr s))
  (* 768 policy_for_opt: FOR DELETE *)
  | 89 => get as_str 1 args (fun s => Value (YStr s))
  (* 773 using_opt: (empty) *)
  | 90 => Value (YExpr None)
  (* 777 using_opt: USING expression *)
  | 91 => get as_expr_opt 1 args (fun e => Value (YExpr e))
  (* 782 with_check_opt: (empty) *)
  | 92 => Value (YExpr None)
  (* 786 with_check_opt: WITH CHECK expression *)
  | 93 => get as_expr_opt 2 args (fun e => Value (YExpr e))
  (* 791 unique_opt: (empty) *)
  | 94 => Value (YBool false)
  (* 795 unique_opt: UNIQUE *)
  | 95 => Value (YBool true)
  (* 800 vindex_type_opt: (empty) *)
  | 96 => Value (YStr "")
  (* 804 vindex_type_opt: USING vindex_type *)
  | 97 => get as_str 1 args (fun s => Value (YStr s))
  (* 810 vindex_type: ID *)
  | 98 => get as_str 0 args (fun s => Value (YStr s))
  (* 815 vindex_params_opt: (empty) *)
  | 99 => Value (YNone)
  (* 820 vindex_params_opt: WITH vindex_param_list *)
  | 100 => Value (YNone)
  (* 826 vindex_param_list: vindex_param *)
  | 101 => Value (YNone)
  (* 831 vindex_param_list: vindex_param_list ',' vindex_param *)
  | 102 => Value (YNone)
  (* 837 vindex_param: reserved_sql_id '=' table_opt_value *)
  | 103 => Value (YNone)
  (* 842 or_replace_opt: (empty) *)
  | 104 => Value (YNone)
  (* 846 or_replace_opt: OR REPLACE *)
  | 105 => Value (YNone)
  (* 852 create_table_prefix: CREATE TABLE not_exists_opt table_name *)
  | 106 => get as_table 3 args (fun t => Value (YStmt (SDdl (mkDDL "create" no_table t None None [] None None None None))))
  (* 859 table_spec: '(' table_column_list ')' table_option_list *)
  | 107 => get as_spec 1 args (fun t => get as_str 3 args (fun o => Value (YSpec (mkTableSpec (ts_columns t) (ts_indexes t) (ts_fks t) o))))
  (* 866 table_column_list: column_definition *)
  | 108 => get as_column 0 args (fun c => Value (YSpec (mkTableSpec [c] [] [] "")))
  (* 871 table_column_list: table_column_list ',' column_definition *)
  | 109 => get as_spec 0 args (fun t => get as_column 2 args (fun c => Value (YSpec (mkTableSpec (ts_columns t ++ [c]) (ts_indexes t) (ts_fks t) (ts_options t)))))
  (* 875 table_column_list: table_column_list ',' index_definition *)
  | 110 => get as_spec 0 args (fun t => get as_index 2 args (fun i => Value (YSpec (mkTableSpec (ts_columns t) (ts_indexes t ++ [i]) (ts_fks t) (ts_options t)))))
  (* 879 table_column_list: table_column_list ',' foreign_key_definition *)
  | 111 => get as_spec 0 args (fun t => get as_fk 2 args (fun f => Value (YSpec (mkTableSpec (ts_columns t) (ts_indexes t) (ts_fks t ++ [f]) (ts_options t)))))
  (* 883 table_column_list: table_column_list ',' primary_key_definition *)
  | 112 => get as_spec 0 args (fun t => get as_index 2 args (fun i => Value (YSpec (mkTableSpec (ts_columns t) (ts_indexes t ++ [i]) (ts_fks t) (ts_options t)))))
  | _ => first_value args
  end%positive.

Definition column_options (p : positive) (args : list yval) : reduced :=
  match p with
  (* 889 column_definition: ID column_definition_type *)
  | 113 => get as_str 0 args (fun n => get as_type 1 args (fun t => Value (YColumn (mkColumnDefinition n t))))
  (* 894 column_type: numeric_type unsigned_opt zero_fill_opt *)
  | 114 => get as_type 0 args (fun t => get as_bool 1 args (fun u => Value (YType (set_ct_unsigned u t))))
  (* 905 column_definition_type: column_type array_opt *)
  | 119 => get as_type 0 args (fun t => get as_bool 1 args (fun r => Value (YType (declare r t))))
  (* 917 column_definition_type: column_definition_type NULL *)
  | 120 => get as_type 0 args (fun t => Value (YType (set_ct_not_null (Some false) t)))
  (* 922 column_definition_type: column_definition_type NOT NULL *)
  | 121 => get as_type 0 args (fun t => Value (YType (set_ct_not_null (Some true) t)))
  (* 927 column_definition_type: column_definition_type default_definition *)
  | 122 => get as_type 0 args (fun t => get as_val 1 args (fun d => Value (YType (set_ct_default (Some (mkSqlDefault d "")) t))))
  (* 932 column_definition_type: column_definition_type CONSTRAINT sql_id default_definition *)
  | 123 => get as_type 0 args (fun t => get as_str 2 args (fun n => get as_val 3 args (fun d => Value (YType (set_ct_default (Some (mkSqlDefault d n)) t)))))
  (* 937 column_definition_type: column_definition_type ON UPDATE current_timestamp *)
  | 124 => get as_type 0 args (fun t => get as_val 3 args (fun d => Value (YType (set_ct_on_update d t))))
  (* 942 column_definition_type: column_definition_type AUTO_INCREMENT *)
  | 125 => get as_type 0 args (fun t => Value (YType (set_ct_autoincrement true t)))
  (* 947 column_definition_type: column_definition_type AUTOINCREMENT *)
  | 126 => get as_type 0 args (fun t => Value (YType (set_ct_autoincrement true t)))
  (* 952 column_definition_type: column_definition_type PRIMARY KEY *)
  | 127 => get as_type 0 args (fun t => Value (YType (set_ct_key ColKeyPrimary t)))
  (* 957 column_definition_type: column_definition_type KEY *)
  | 128 => get as_type 0 args (fun t => Value (YType (set_ct_key ColKey t)))
  (* 962 column_definition_type: column_definition_type UNIQUE KEY *)
  | 129 => get as_type 0 args (fun t => Value (YType (set_ct_key ColKeyUniqueKey t)))
  (* 967 column_definition_type: column_definition_type UNIQUE *)
  | 130 => get as_type 0 args (fun t => Value (YType (set_ct_key ColKeyUnique t)))
  (* 972 column_definition_type: column_definition_type CHECK not_for_replication_opt openb expression closeb no_inherit_opt *)
  | 131 => get as_type 0 args (fun t => get as_bool 2 args (fun r => get as_expr 4 args (fun e => get as_bool 6 args (fun i => Value (YType (set_ct_no_inherit i (set_ct_check (Some (mkSqlCheck (mkWhere "where" (expr_of e)) "" r)) t)))))))
  (* 978 column_definition_type: column_definition_type CONSTRAINT sql_id CHECK not_for_replication_opt openb expression closeb *)
  | 132 => get as_type 0 args (fun t => get as_str 2 args (fun n => get as_bool 4 args (fun r => get as_expr 6 args (fun e => Value (YType (set_ct_check (Some (mkSqlCheck (mkWhere "where" (expr_of e)) n r)) t))))))
  (* 983 column_definition_type: column_definition_type COMMENT_KEYWORD STRING *)
  | 133 => get as_type 0 args (fun t => Value (YType t))
  (* 988 column_definition_type: column_definition_type REFERENCES table_id *)
  | 134 => get as_type 0 args (fun t => get as_str 2 args (fun n => Value (YType (set_ct_references n t))))
  (* 993 column_definition_type: column_definition_type REFERENCES table_id '(' column_list ')' *)
  | 135 => get as_type 0 args (fun t => get as_str 2 args (fun n => Value (YType (set_ct_references n t))))
  (* 999 column_definition_type: column_definition_type GENERATED identity_behavior AS IDENTITY *)
  | 136 => get as_type 0 args (fun t => get as_str 2 args (fun b => Value (YType (set_ct_identity (Some (mkIdentityOpt b None false)) (set_ct_not_null (Some true) t)))))
  (* 1005 column_definition_type: column_definition_type GENERATED identity_behavior AS IDENTITY '(' sequence_opt ')' *)
  | 137 => get as_type 0 args (fun t => get as_str 2 args (fun b => get as_seq 6 args (fun q => Value (YType (set_ct_identity (Some (mkIdentityOpt b (Some q) false)) (set_ct_not_null (Some true) t))))))
  (* 1011 column_definition_type: column_definition_type IDENTITY '(' INTEGRAL ',' INTEGRAL ')' *)
  | 138 => get as_type 0 args (fun t => get as_str 3 args (fun a => get as_str 5 args (fun b => Value (YType (set_ct_identity (Some (mkIdentityOpt "" (Some (sq_increment b (sq_start a no_sequence))) false)) t)))))
  (* 1017 column_definition_type: column_definition_type NOT FOR REPLICATION *)
  | 139 => get as_type 0 args (fun t => match ct_identity t with Some i => Value (YType (set_ct_identity (Some (mkIdentityOpt (io_behavior i) (io_sequence i) true)) t)) | None => NilDereference end)
  (* 1024 default_definition: DEFAULT default_val *)
  | 140 => get as_val 1 args (fun v => Value (YVal v))
  (* 1028 default_definition: DEFAULT '(' default_val ')' *)
  | 141 => get as_val 2 args (fun v => Value (YVal v))
  (* 1032 default_definition: DEFAULT '(' '(' default_val ')' ')' *)
  | 142 => get as_val 3 args (fun v => Value (YVal v))
  (* 1038 default_val: STRING character_cast_opt *)
  | 143 => get as_str 0 args (fun s => Value (YVal (Some (mkSqlVal StrVal s))))
  (* 1042 default_val: INTEGRAL *)
  | 144 => get as_str 0 args (fun s => Value (YVal (Some (mkSqlVal IntVal s))))
  (* 1046 default_val: FLOAT *)
  | 145 => get as_str 0 args (fun s => Value (YVal (Some (mkSqlVal FloatVal s))))
  (* 1050 default_val: NULL *)
  | 146 => get as_str 0 args (fun s => Value (YVal (Some (mkSqlVal ValArg s))))
  (* 1054 default_val: current_timestamp *)
  | 147 => get as_val 0 args (fun v => Value (YVal v))
  (* 1058 default_val: BIT_LITERAL *)
  | 148 => get as_str 0 args (fun s => Value (YVal (Some (mkSqlVal BitVal s))))
  (* 1062 default_val: boolean_value *)
  | 149 => get as_bool 0 args (fun b => Value (YVal (Some (bool_val b))))
  (* 1066 default_val: NOW openb closeb *)
  | 150 => get as_str 0 args (fun s => Value (YVal (Some (mkSqlVal BitVal s))))
  (* 1072 identity_behavior: ALWAYS *)
  | 151 => get as_str 0 args (fun s => Value (YStr s))
  (* 1076 identity_behavior: BY DEFAULT *)
  | 152 => get as_str 0 args (fun s => get as_str 1 args (fun t => Value (YStr (s ++ " " ++ t))))
  (* 1081 sequence_opt: (empty) *)
  | 153 => Value (YSeq no_sequence)
  (* 1085 sequence_opt: sequence_opt START WITH INTEGRAL *)
  | 154 => get as_seq 0 args (fun q => get as_str 3 args (fun v => Value (YSeq (sq_start v q))))
  (* 1090 sequence_opt: sequence_opt START INTEGRAL *)
  | 155 => get as_seq 0 args (fun q => get as_str 2 args (fun v => Value (YSeq (sq_start v q))))
  (* 1095 sequence_opt: sequence_opt INCREMENT BY INTEGRAL *)
  | 156 => get as_seq 0 args (fun q => get as_str 3 args (fun v => Value (YSeq (sq_increment v q))))
  (* 1100 sequence_opt: sequence_opt INCREMENT INTEGRAL *)
  | 157 => get as_seq 0 args (fun q => get as_str 2 args (fun v => Value (YSeq (sq_increment v q))))
  (* 1105 sequence_opt: sequence_opt MINVALUE INTEGRAL *)
  | 158 => get as_seq 0 args (fun q => get as_str 2 args (fun v => Value (YSeq (sq_min v q))))
  (* 1110 sequence_opt: sequence_opt MAXVALUE INTEGRAL *)
  | 159 => get as_seq 0 args (fun q => get as_str 2 args (fun v => Value (YSeq (sq_max v q))))
  (* 1115 sequence_opt: sequence_opt CACHE INTEGRAL *)
  | 160 => get as_seq 0 args (fun q => get as_str 2 args (fun v => Value (YSeq (sq_cache v q))))
  (* 1120 sequence_opt: sequence_opt NO MINVALUE *)
  | 161 => get as_seq 0 args (fun q => Value (YSeq (sq_no_min q)))
  (* 1125 sequence_opt: sequence_opt NO MAXVALUE *)
  | 162 => get as_seq 0 args (fun q => Value (YSeq (sq_no_max q)))
  (* 1130 sequence_opt: sequence_opt NO CYCLE *)
  | 163 => get as_seq 0 args (fun q => Value (YSeq (sq_no_cycle q)))
  (* 1135 sequence_opt: sequence_opt CYCLE *)
  | 164 => get as_seq 0 args (fun q => Value (YSeq (sq_cycle q)))
  (* 1140 sequence_opt: sequence_opt OWNED BY NONE *)
  | 165 => get as_seq 0 args (fun q => Value (YSeq (sq_owned "NONE" q)))
  (* 1145 sequence_opt: sequence_opt OWNED BY table_id '.' reserved_sql_id *)
  | 166 => get as_seq 0 args (fun q => get as_str 3 args (fun t => get as_str 5 args (fun c => Value (YSeq (sq_owned (t ++ "." ++ c) q)))))
  (* 1152 current_timestamp: CURRENT_TIMESTAMP length_opt *)
  | 167 => get as_str 0 args (fun s => get as_val 1 args (fun v => Value (YVal (Some (val_arg s v)))))
  (* 1156 current_timestamp: CURRENT_TIMESTAMP '(' ')' *)
  | 168 => get as_str 0 args (fun s => Value (YVal (Some (val_arg s None))))
  (* 1160 current_timestamp: CURRENT_TIME length_opt *)
  | 169 => get as_str 0 args (fun s => get as_val 1 args (fun v => Value (YVal (Some (val_arg s v)))))
  (* 1164 current_timestamp: CURRENT_TIME '(' ')' *)
  | 170 => get as_str 0 args (fun s => Value (YVal (Some (val_arg s None))))
  (* 1168 current_timestamp: CURRENT_DATE *)
  | 171 => get as_str 0 args (fun s => Value (YVal (Some (val_arg s None))))
  (* 1172 current_timestamp: GETDATE '(' ')' *)
  | 172 => get as_str 0 args (fun s => Value (YVal (Some (val_arg s None))))
  (* 1177 no_inherit_opt: (empty) *)
  | 173 => Value (YBool false)
  (* 1181 no_inherit_opt: NO INHERIT *)
  | 174 => Value (YBool true)
  (* 1186 character_cast_opt: (empty) *)
  | 175 => Value (YNone)
  | _ => first_value args
  end%positive.

Definition column_types (p : positive) (args : list yval) : reduced :=
  match p with
  (* 1196 numeric_type: int_type length_opt *)
  | 180 => get as_type 0 args (fun t => get as_val 1 args (fun l => Value (YType (set_ct_length l (ct_scale t) t))))
  (* 1201 numeric_type: decimal_type *)
  | 181 => get as_type 0 args (fun t => Value (YType t))
  (* 1207 int_type: BIT *)
  | 182 => get as_str 0 args (fun s => Value (YType (plain_type s)))
  (* 1211 int_type: TINYINT *)
  | 183 => get as_str 0 args (fun s => Value (YType (plain_type s)))
  (* 1215 int_type: SMALLINT *)
  | 184 => get as_str 0 args (fun s => Value (YType (plain_type s)))
  (* 1219 int_type: SMALLSERIAL *)
  | 185 => get as_str 0 args (fun s => Value (YType (plain_type s)))
  (* 1223 int_type: MEDIUMINT *)
  | 186 => get as_str 0 args (fun s => Value (YType (plain_type s)))
  (* 1227 int_type: INT *)
  | 187 => get as_str 0 args (fun s => Value (YType (plain_type s)))
  (* 1231 int_type: INTEGER *)
  | 188 => get as_str 0 args (fun s => Value (YType (plain_type s)))
  (* 1235 int_type: SERIAL *)
  | 189 => get as_str 0 args (fun s => Value (YType (plain_type s)))
  (* 1239 int_type: BIGINT *)
  | 190 => get as_str 0 args (fun s => Value (YType (plain_type s)))
  (* 1243 int_type: BIGSERIAL *)
  | 191 => get as_str 0 args (fun s => Value (YType (plain_type s)))
  (* 1249 decimal_type: REAL float_length_opt *)
  | 192 => get as_str 0 args (fun s => get as_lens 1 args (fun l => Value (YType (set_ct_length (fst l) (snd l) (plain_type s)))))
  (* 1255 decimal_type: DOUBLE PRECISION float_length_opt *)
  | 193 => get as_str 0 args (fun s => get as_str 1 args (fun p => get as_lens 2 args (fun l => Value (YType (set_ct_length (fst l) (snd l) (plain_type (s ++ " " ++ p)))))))
  (* 1261 decimal_type: DOUBLE float_length_opt *)
  | 194 => get as_str 0 args (fun s => get as_lens 1 args (fun l => Value (YType (set_ct_length (fst l) (snd l) (plain_type s)))))
  (* 1267 decimal_type: FLOAT_TYPE float_length_opt *)
  | 195 => get as_str 0 args (fun s => get as_lens 1 args (fun l => Value (YType (set_ct_length (fst l) (snd l) (plain_type s)))))
  (* 1273 decimal_type: DECIMAL decimal_length_opt *)
  | 196 => get as_str 0 args (fun s => get as_lens 1 args (fun l => Value (YType (set_ct_length (fst l) (snd l) (plain_type s)))))
  (* 1279 decimal_type: NUMERIC decimal_length_opt *)
  | 197 => get as_str 0 args (fun s => get as_lens 1 args (fun l => Value (YType (set_ct_length (fst l) (snd l) (plain_type s)))))
  (* 1285 decimal_type: MONEY *)
  | 198 => get as_str 0 args (fun s => Value (YType (plain_type s)))
  (* 1289 decimal_type: SMALLMONEY *)
  | 199 => get as_str 0 args (fun s => Value (YType (plain_type s)))
  (* 1295 time_type: DATE *)
  | 200 => get as_str 0 args (fun s => Value (YType (plain_type s)))
  (* 1299 time_type: TIME length_opt time_zone_opt *)
  | 201 => get as_str 0 args (fun s => get as_val 1 args (fun l => get as_bool 2 args (fun z => Value (YType (set_ct_timezone z (set_ct_length l None (plain_type s)))))))
  (* 1303 time_type: TIMESTAMP length_opt time_zone_opt *)
  | 202 => get as_str 0 args (fun s => get as_val 1 args (fun l => get as_bool 2 args (fun z => Value (YType (set_ct_timezone z (set_ct_length l None (plain_type s)))))))
  (* 1307 time_type: DATETIME length_opt *)
  | 203 => get as_str 0 args (fun s => get as_val 1 args (fun l => Value (YType (set_ct_length l None (plain_type s)))))
  (* 1311 time_type: DATETIME2 *)
  | 204 => get as_str 0 args (fun s => Value (YType (plain_type s)))
  (* 1315 time_type: DATETIMEOFFSET length_opt *)
  | 205 => get as_str 0 args (fun s => get as_val 1 args (fun l => Value (YType (set_ct_length l None (plain_type s)))))
  (* 1319 time_type: SMALLDATETIME *)
  | 206 => get as_str 0 args (fun s => Value (YType (plain_type s)))
  (* 1323 time_type: YEAR *)
  | 207 => get as_str 0 args (fun s => Value (YType (plain_type s)))
  (* 1329 bool_type: BOOL *)
  | 208 => get as_str 0 args (fun s => Value (YType (plain_type s)))
  (* 1333 bool_type: BOOLEAN *)
  | 209 => get as_str 0 args (fun s => Value (YType (plain_type s)))
  (* 1339 char_type: CHAR length_opt charset_opt collate_opt *)
  | 210 => get as_str 0 args (fun s => get as_val 1 args (fun l => get as_str 2 args (fun c => get as_str 3 args (fun o => Value (YType (set_ct_charset c o (set_ct_length l None (plain_type s))))))))
  (* 1343 char_type: CHARACTER length_opt charset_opt collate_opt *)
  | 211 => get as_str 0 args (fun s => get as_val 1 args (fun l => get as_str 2 args (fun c => get as_str 3 args (fun o => Value (YType (set_ct_charset c o (set_ct_length l None (plain_type s))))))))
  (* 1347 char_type: VARCHAR length_opt charset_opt collate_opt *)
  | 212 => get as_str 0 args (fun s => get as_val 1 args (fun l => get as_str 2 args (fun c => get as_str 3 args (fun o => Value (YType (set_ct_charset c o (set_ct_length l None (plain_type s))))))))
  (* 1351 char_type: NCHAR length_opt charset_opt collate_opt *)
  | 213 => get as_str 0 args (fun s => get as_val 1 args (fun l => get as_str 2 args (fun c => get as_str 3 args (fun o => Value (YType (set_ct_charset c o (set_ct_length l None (plain_type s))))))))
  (* 1355 char_type: NVARCHAR length_opt charset_opt collate_opt *)
  | 214 => get as_str 0 args (fun s => get as_val 1 args (fun l => get as_str 2 args (fun c => get as_str 3 args (fun o => Value (YType (set_ct_charset c o (set_ct_length l None (plain_type s))))))))
  (* 1359 char_type: NTEXT *)
  | 215 => get as_str 0 args (fun s => Value (YType (plain_type s)))
  (* 1363 char_type: CHARACTER VARYING length_opt charset_opt collate_opt *)
  | 216 => get as_str 0 args (fun s => get as_str 1 args (fun y => get as_val 2 args (fun l => get as_str 3 args (fun c => get as_str 4 args (fun o => Value (YType (set_ct_charset c o (set_ct_length l None (plain_type (s ++ " " ++ y))))))))))
  (* 1367 char_type: BINARY length_opt *)
  | 217 => get as_str 0 args (fun s => get as_val 1 args (fun l => Value (YType (set_ct_length l None (plain_type s)))))
  (* 1371 char_type: VARBINARY length_opt *)
  | 218 => get as_str 0 args (fun s => get as_val 1 args (fun l => Value (YType (set_ct_length l None (plain_type s)))))
  (* 1375 char_type: TEXT charset_opt collate_opt *)
  | 219 => get as_str 0 args (fun s => get as_str 1 args (fun c => get as_str 2 args (fun o => Value (YType (set_ct_charset c o (plain_type s))))))
  (* 1379 char_type: TINYTEXT charset_opt collate_opt *)
  | 220 => get as_str 0 args (fun s => get as_str 1 args (fun c => get as_str 2 args (fun o => Value (YType (set_ct_charset c o (plain_type s))))))
  (* 1383 char_type: MEDIUMTEXT charset_opt collate_opt *)
  | 221 => get as_str 0 args (fun s => get as_str 1 args (fun c => get as_str 2 args (fun o => Value (YType (set_ct_charset c o (plain_type s))))))
  (* 1387 char_type: LONGTEXT charset_opt collate_opt *)
  | 222 => get as_str 0 args (fun s => get as_str 1 args (fun c => get as_str 2 args (fun o => Value (YType (set_ct_charset c o (plain_type s))))))
  (* 1391 char_type: CITEXT charset_opt collate_opt *)
  | 223 => get as_str 0 args (fun s => get as_str 1 args (fun c => get as_str 2 args (fun o => Value (YType (set_ct_charset c o (plain_type s))))))
  (* 1395 char_type: BLOB *)
  | 224 => get as_str 0 args (fun s => Value (YType (plain_type s)))
  (* 1399 char_type: TINYBLOB *)
  | 225 => get as_str 0 args (fun s => Value (YType (plain_type s)))
  (* 1403 char_type: MEDIUMBLOB *)
  | 226 => get as_str 0 args (fun s => Value (YType (plain_type s)))
  (* 1407 char_type: LONGBLOB *)
  | 227 => get as_str 0 args (fun s => Value (YType (plain_type s)))
  (* 1411 char_type: JSON *)
  | 228 => get as_str 0 args (fun s => Value (YType (plain_type s)))
  (* 1415 char_type: JSONB *)
  | 229 => get as_str 0 args (fun s => Value (YType (plain_type s)))
  (* 1419 char_type: UUID *)
  | 230 => get as_str 0 args (fun s => Value (YType (plain_type s)))
  (* 1423 char_type: ENUM '(' enum_values ')' charset_opt collate_opt *)
  | 231 => get as_str 0 args (fun s => get as_strs 2 args (fun e => get as_str 4 args (fun c => get as_str 5 args (fun o => Value (YType (set_ct_charset c o (set_ct_enum e (plain_type s))))))))
  (* 1428 char_type: SET '(' enum_values ')' charset_opt collate_opt *)
  | 232 => get as_str 0 args (fun s => get as_strs 2 args (fun e => get as_str 4 args (fun c => get as_str 5 args (fun o => Value (YType (set_ct_charset c o (set_ct_enum e (plain_type s))))))))
  (* 1434 spatial_type: GEOMETRY *)
  | 233 => get as_str 0 args (fun s => Value (YType (plain_type s)))
  (* 1438 spatial_type: POINT *)
  | 234 => get as_str 0 args (fun s => Value (YType (plain_type s)))
  (* 1442 spatial_type: LINESTRING *)
  | 235 => get as_str 0 args (fun s => Value (YType (plain_type s)))
  (* 1446 spatial_type: POLYGON *)
  | 236 => get as_str 0 args (fun s => Value (YType (plain_type s)))
  (* 1450 spatial_type: GEOMETRYCOLLECTION *)
  | 237 => get as_str 0 args (fun s => Value (YType (plain_type s)))
  (* 1454 spatial_type: MULTIPOINT *)
  | 238 => get as_str 0 args (fun s => Value (YType (plain_type s)))
  (* 1458 spatial_type: MULTILINESTRING *)
  | 239 => get as_str 0 args (fun s => Value (YType (plain_type s)))
  (* 1462 spatial_type: MULTIPOLYGON *)
  | 240 => get as_str 0 args (fun s => Value (YType (plain_type s)))
  (* 1468 enum_values: STRING *)
  | 241 => get as_str 0 args (fun s => Value (YStrs [("'" ++ s ++ "'")%string]))
  (* 1473 enum_values: enum_values ',' STRING *)
  | 242 => get as_strs 0 args (fun l => get as_str 2 args (fun s => Value (YStrs (l ++ [("'" ++ s ++ "'")%string]))))
  (* 1478 length_opt: (empty) *)
  | 243 => Value (YVal None)
  (* 1482 length_opt: '(' INTEGRAL ')' *)
  | 244 => get as_str 1 args (fun s => Value (YVal (Some (mkSqlVal IntVal s))))
  (* 1487 float_length_opt: (empty) *)
  | 245 => Value (YLens None None)
  (* 1491 float_length_opt: '(' INTEGRAL ',' INTEGRAL ')' *)
  | 246 => get as_str 1 args (fun s => get as_str 3 args (fun t => Value (YLens (Some (mkSqlVal IntVal s)) (Some (mkSqlVal IntVal t)))))
  (* 1499 decimal_length_opt: (empty) *)
  | 247 => Value (YLens None None)
  (* 1503 decimal_length_opt: '(' INTEGRAL ')' *)
  | 248 => get as_str 1 args (fun s => Value (YLens (Some (mkSqlVal IntVal s)) None))
  (* 1509 decimal_length_opt: '(' INTEGRAL ',' INTEGRAL ')' *)
  | 249 => get as_str 1 args (fun s => get as_str 3 args (fun t => Value (YLens (Some (mkSqlVal IntVal s)) (Some (mkSqlVal IntVal t)))))
  (* 1517 time_zone_opt: (empty) *)
  | 250 => Value (YBool false)
  (* 1521 time_zone_opt: WITH TIME ZONE *)
  | 251 => Value (YBool true)
  (* 1525 time_zone_opt: WITHOUT TIME ZONE *)
  | 252 => Value (YBool false)
  (* 1530 unsigned_opt: (empty) *)
  | 253 => Value (YBool false)
  (* 1534 unsigned_opt: UNSIGNED *)
  | 254 => Value (YBool true)
  (* 1539 zero_fill_opt: (empty) *)
  | 255 => Value (YBool false)
  (* 1543 zero_fill_opt: ZEROFILL *)
  | 256 => Value (YBool true)
  (* 1548 array_opt: (empty) *)
  | 257 => Value (YBool false)
  (* 1552 array_opt: '[' ']' *)
  | 258 => Value (YBool true)
  (* 1556 array_opt: ARRAY *)
  | 259 => Value (YBool true)
  (* 1561 charset_opt: (empty) *)
  | 260 => Value (YStr "")
  (* 1565 charset_opt: CHARACTER SET ID *)
  | 261 => get as_str 2 args (fun s => Value (YStr s))
  (* 1569 charset_opt: CHARACTER SET BINARY *)
  | 262 => get as_str 2 args (fun s => Value (YStr s))
  (* 1574 collate_opt: (empty) *)
  | 263 => Value (YStr "")
  (* 1578 collate_opt: BINARY *)
  | 264 => get as_str 0 args (fun s => Value (YStr s))
  (* 1582 collate_opt: COLLATE ID *)
  | 265 => get as_str 1 args (fun s => Value (YStr s))
  | _ => first_value args
  end%positive.

Definition keys_and_options (p : positive) (args : list yval) : reduced :=
  match p with
  (* 1588 index_definition: index_info '(' index_column_list ')' index_option_opt index_partition_opt *)
  | 266 => get as_index_info 0 args (fun i => get as_index_columns 2 args (fun l => get as_index_options 4 args (fun o => get as_index_partition 5 args (fun p => Value (YIndex (mkIndexDefinition i l o p))))))
  (* 1593 index_option_opt: (empty) *)
  | 267 => Value (YIndexOptions [])
  (* 1597 index_option_opt: index_option_list *)
  | 268 => get as_index_options 0 args (fun l => Value (YIndexOptions l))
  (* 1601 index_option_opt: WITH '(' mssql_index_option_list ')' *)
  | 269 => get as_index_options 2 args (fun l => Value (YIndexOptions l))
  (* 1607 index_option_list: index_option *)
  | 270 => get as_index_option 0 args (fun o => Value (YIndexOptions [o]))
  (* 1611 index_option_list: index_option_list index_option *)
  | 271 => get as_index_options 0 args (fun l => get as_index_option 1 args (fun o => Value (YIndexOptions (l ++ [o]))))
  (* 1617 mssql_index_option_list: index_option *)
  | 272 => get as_index_option 0 args (fun o => Value (YIndexOptions [o]))
  (* 1621 mssql_index_option_list: mssql_index_option_list ',' index_option *)
  | 273 => get as_index_options 0 args (fun l => get as_index_option 2 args (fun o => Value (YIndexOptions (l ++ [o]))))
  (* 1627 index_option: USING ID *)
  | 274 => get as_str 0 args (fun n => Value (YIndexOption (mkSqlIndexOption n None)))
  (* 1631 index_option: KEY_BLOCK_SIZE equal_opt INTEGRAL *)
  | 275 => get as_str 0 args (fun n => get as_str 2 args (fun v => Value (YIndexOption (mkSqlIndexOption n (Some (mkSqlVal IntVal v))))))
  (* 1636 index_option: COMMENT_KEYWORD STRING *)
  | 276 => get as_str 0 args (fun n => get as_str 1 args (fun v => Value (YIndexOption (mkSqlIndexOption n (Some (mkSqlVal StrVal v))))))
  (* 1640 index_option: WITH PARSER sql_id *)
  | 277 => get as_str 1 args (fun n => get as_str 2 args (fun v => Value (YIndexOption (mkSqlIndexOption n (Some (mkSqlVal StrVal v))))))
  (* 1644 index_option: PAD_INDEX '=' on_off *)
  | 278 => get as_str 0 args (fun n => get as_val 2 args (fun v => Value (YIndexOption (mkSqlIndexOption n v))))
  (* 1648 index_option: FILLFACTOR '=' INTEGRAL *)
  | 279 => get as_str 0 args (fun n => get as_str 2 args (fun v => Value (YIndexOption (mkSqlIndexOption n (Some (mkSqlVal IntVal v))))))
  (* 1652 index_option: IGNORE_DUP_KEY '=' on_off *)
  | 280 => get as_str 0 args (fun n => get as_val 2 args (fun v => Value (YIndexOption (mkSqlIndexOption n v))))
  (* 1656 index_option: STATISTICS_NORECOMPUTE '=' on_off *)
  | 281 => get as_str 0 args (fun n => get as_val 2 args (fun v => Value (YIndexOption (mkSqlIndexOption n v))))
  (* 1660 index_option: STATISTICS_INCREMENTAL '=' on_off *)
  | 282 => get as_str 0 args (fun n => get as_val 2 args (fun v => Value (YIndexOption (mkSqlIndexOption n v))))
  (* 1664 index_option: ALLOW_ROW_LOCKS '=' on_off *)
  | 283 => get as_str 0 args (fun n => get as_val 2 args (fun v => Value (YIndexOption (mkSqlIndexOption n v))))
  (* 1668 index_option: ALLOW_PAGE_LOCKS '=' on_off *)
  | 284 => get as_str 0 args (fun n => get as_val 2 args (fun v => Value (YIndexOption (mkSqlIndexOption n v))))
  (* 1674 equal_opt: (empty) *)
  | 285 => Value (YStr "")
  (* 1678 equal_opt: '=' *)
  | 286 => get as_str 0 args (fun s => Value (YStr s))
  (* 1684 on_off: ON *)
  | 287 => Value (YVal (Some (bool_val true)))
  (* 1688 on_off: OFF *)
  | 288 => Value (YVal (Some (bool_val false)))
  (* 1694 index_partition_opt: (empty) *)
  | 289 => Value (YIndexPartition None)
  (* 1698 index_partition_opt: ON sql_id *)
  | 290 => get as_str 1 args (fun n => Value (YIndexPartition (Some (mkSqlIndexPartition n ""))))
  (* 1702 index_partition_opt: ON sql_id openb sql_id closeb *)
  | 291 => get as_str 1 args (fun n => get as_str 3 args (fun c => Value (YIndexPartition (Some (mkSqlIndexPartition n c)))))
  (* 1708 index_info: PRIMARY KEY *)
  | 292 => get as_str 0 args (fun a => get as_str 1 args (fun b => Value (YIndexInfo (mkIndexInfo (a ++ " " ++ b) "PRIMARY" true true false))))
  (* 1712 index_info: SPATIAL index_or_key ID *)
  | 293 => get as_str 0 args (fun a => get as_str 1 args (fun b => get as_str 2 args (fun n => Value (YIndexInfo (mkIndexInfo (a ++ " " ++ b) n false false false)))))
  (* 1716 index_info: FULLTEXT index_or_key ID *)
  | 294 => get as_str 0 args (fun a => get as_str 1 args (fun b => get as_str 2 args (fun n => Value (YIndexInfo (mkIndexInfo (a ++ " " ++ b) n false false false)))))
  (* 1720 index_info: FULLTEXT ID *)
  | 295 => get as_str 0 args (fun a => get as_str 1 args (fun n => Value (YIndexInfo (mkIndexInfo a n false false false))))
  (* 1724 index_info: UNIQUE index_or_key ID *)
  | 296 => get as_str 0 args (fun a => get as_str 1 args (fun b => get as_str 2 args (fun n => Value (YIndexInfo (mkIndexInfo (a ++ " " ++ b) n false true false)))))
  (* 1728 index_info: UNIQUE ID *)
  | 297 => get as_str 0 args (fun a => get as_str 1 args (fun n => Value (YIndexInfo (mkIndexInfo a n false true false))))
  (* 1732 index_info: index_or_key ID clustered_opt *)
  | 298 => get as_str 0 args (fun a => get as_str 1 args (fun n => get as_bool 2 args (fun c => Value (YIndexInfo (mkIndexInfo a n false false c)))))
  (* 1736 index_info: index_or_key ID UNIQUE clustered_opt *)
  | 299 => get as_str 0 args (fun a => get as_str 1 args (fun n => get as_bool 3 args (fun c => Value (YIndexInfo (mkIndexInfo a n false true c)))))
  (* 1742 index_or_key: INDEX *)
  | 300 => get as_str 0 args (fun s => Value (YStr s))
  (* 1746 index_or_key: KEY *)
  | 301 => get as_str 0 args (fun s => Value (YStr s))
  (* 1752 index_column_list: index_column *)
  | 302 => get as_index_column 0 args (fun c => Value (YIndexColumns [c]))
  (* 1756 index_column_list: index_column_list ',' index_column *)
  | 303 => get as_index_columns 0 args (fun l => get as_index_column 2 args (fun c => Value (YIndexColumns (l ++ [c]))))
  (* 1762 index_column: sql_id length_opt asc_desc_opt *)
  | 304 => get as_str 0 args (fun n => get as_val 1 args (fun l => get as_str 2 args (fun d => Value (YIndexColumn (mkSqlIndexColumn n l d)))))
  (* 1767 index_column: KEY length_opt *)
  | 305 => get as_str 0 args (fun n => get as_val 1 args (fun l => Value (YIndexColumn (mkSqlIndexColumn n l ""))))
  (* 1773 foreign_key_definition: foreign_key_without_options not_for_replication_opt *)
  | 306 => get as_fk 0 args (fun f => get as_bool 1 args (fun r => Value (YFk (fk_with (fd_on_delete f) (fd_on_update f) r f))))
  (* 1778 foreign_key_definition: foreign_key_without_options ON DELETE reference_option not_for_replication_opt *)
  | 307 => get as_fk 0 args (fun f => get as_str 3 args (fun d => get as_bool 4 args (fun r => Value (YFk (fk_with d "" r f)))))
  (* 1785 foreign_key_definition: foreign_key_without_options ON UPDATE reference_option not_for_replication_opt *)
  | 308 => get as_fk 0 args (fun f => get as_str 3 args (fun u => get as_bool 4 args (fun r => Value (YFk (fk_with "" u r f)))))
  (* 1792 foreign_key_definition: foreign_key_without_options ON DELETE reference_option ON UPDATE reference_option not_for_replication_opt *)
  | 309 => get as_fk 0 args (fun f => get as_str 3 args (fun d => get as_str 6 args (fun u => get as_bool 7 args (fun r => Value (YFk (fk_with d u r f))))))
  (* 1799 foreign_key_definition: foreign_key_without_options ON UPDATE reference_option ON DELETE reference_option not_for_replication_opt *)
  | 310 => get as_fk 0 args (fun f => get as_str 3 args (fun u => get as_str 6 args (fun d => get as_bool 7 args (fun r => Value (YFk (fk_with d u r f))))))
  (* 1808 foreign_key_without_options: CONSTRAINT sql_id_opt FOREIGN KEY sql_id_opt '(' sql_id_list ')' REFERENCES table_name '(' sql_id_list ')' *)
  | 311 => get as_str 1 args (fun n => get as_str 4 args (fun i => get as_strs 6 args (fun c => get as_table 9 args (fun t => get as_strs 11 args (fun d => Value (YFk (mkFkDefinition n i c (tn_name t) d "" "" false)))))))
  (* 1820 reference_option: RESTRICT *)
  | 312 => Value (YStr "RESTRICT")
  (* 1824 reference_option: CASCADE *)
  | 313 => Value (YStr "CASCADE")
  (* 1828 reference_option: SET NULL *)
  | 314 => Value (YStr "SET NULL")
  (* 1832 reference_option: NO ACTION *)
  | 315 => Value (YStr "NO ACTION")
  (* 1838 primary_key_definition: CONSTRAINT sql_id PRIMARY KEY clustered_opt '(' index_column_list ')' index_option_opt index_partition_opt *)
  | 316 => get as_str 1 args (fun n => get as_str 2 args (fun a => get as_str 3 args (fun b => get as_bool 4 args (fun c => get as_index_columns 6 args (fun l => get as_index_options 8 args (fun o => get as_index_partition 9 args (fun p => Value (YIndex (mkIndexDefinition (mkIndexInfo (a ++ " " ++ b) n true true c) l o p)))))))))
  (* 1849 clustered_opt: (empty) *)
  | 317 => Value (YBool true)
  (* 1853 clustered_opt: CLUSTERED *)
  | 318 => Value (YBool true)
  (* 1857 clustered_opt: NONCLUSTERED *)
  | 319 => Value (YBool false)
  (* 1863 not_for_replication_opt: (empty) *)
  | 320 => Value (YBool false)
  (* 1867 not_for_replication_opt: NOT FOR REPLICATION *)
  | 321 => Value (YBool true)
  (* 1872 sql_id_opt: (empty) *)
  | 322 => Value (YStr "")
  (* 1879 sql_id_list: sql_id *)
  | 324 => get as_str 0 args (fun s => Value (YStrs [s]))
  (* 1883 sql_id_list: sql_id_list ',' sql_id *)
  | 325 => get as_strs 0 args (fun l => get as_str 2 args (fun s => Value (YStrs (l ++ [s]))))
  (* 1888 table_option_list: (empty) *)
  | 326 => Value (YStr "")
  (* 1892 table_option_list: table_option *)
  | 327 => get as_str 0 args (fun s => Value (YStr (" " ++ s)))
  (* 1896 table_option_list: table_option_list ',' table_option *)
  | 328 => get as_str 0 args (fun s => get as_str 2 args (fun t => Value (YStr (s ++ ", " ++ t))))
  (* 1904 table_option: table_opt_value *)
  | 329 => get as_str 0 args (fun s => Value (YStr s))
  (* 1908 table_option: table_option table_opt_value *)
  | 330 => get as_str 0 args (fun s => get as_str 1 args (fun t => Value (YStr (s ++ " " ++ t))))
  (* 1912 table_option: table_option '=' table_opt_value *)
  | 331 => get as_str 0 args (fun s => get as_str 2 args (fun t => Value (YStr (s ++ "=" ++ t))))
  (* 1918 table_opt_value: reserved_sql_id *)
  | 332 => get as_str 0 args (fun s => Value (YStr s))
  (* 1922 table_opt_value: STRING *)
  | 333 => get as_str 0 args (fun s => Value (YStr ("'" ++ s ++ "'")))
  (* 1926 table_opt_value: INTEGRAL *)
  | 334 => get as_str 0 args (fun s => Value (YStr s))
  | _ => first_value args
  end%positive.

Definition other_statements (p : positive) (args : list yval) : reduced :=
  match p with
  (* 1932 alter_statement: ALTER ignore_opt TABLE table_name non_add_drop_or_rename_operation force_eof *)
  | 335 => get as_table 3 args (fun t => Value (YStmt (SDdl (mkDDL "alter" t t None None [] None None None None))))
  (* 1936 alter_statement: ALTER ignore_opt TABLE table_name ADD unique_opt alter_object_type_index sql_id '(' index_column_list ')' *)
  | 336 => get as_table 3 args (fun t => get as_bool 5 args (fun u => get as_str 7 args (fun n => get as_index_columns 9 args (fun l => Value (YStmt (SDdl (mkDDL "add index" t t None (Some (mkIndexSpec n u false [] None [] None)) l None None None None)))))))
  (* 1950 alter_statement: ALTER ignore_opt TABLE ONLY table_name ADD CONSTRAINT sql_id PRIMARY KEY '(' index_column_list ')' *)
  | 337 => get as_table 4 args (fun t => get as_str 7 args (fun n => get as_index_columns 11 args (fun l => Value (YStmt (SDdl (mkDDL "add primary key" t t None (Some (mkIndexSpec n false false [] None [] None)) l None None None None))))))
  (* 1964 alter_statement: ALTER ignore_opt TABLE ONLY table_name ADD foreign_key_definition *)
  | 338 => get as_table 4 args (fun t => get as_fk 6 args (fun f => Value (YStmt (SDdl (mkDDL "add foreign key" t t None None [] (Some f) None None None)))))
  (* 1973 alter_statement: ALTER ignore_opt TABLE table_name ADD alter_object_type_rest force_eof *)
  | 339 => get as_table 3 args (fun t => Value (YStmt (SDdl (mkDDL "alter" t t None None [] None None None None))))
  (* 1977 alter_statement: ALTER ignore_opt TABLE table_name DROP alter_object_type force_eof *)
  | 340 => get as_table 3 args (fun t => Value (YStmt (SDdl (mkDDL "alter" t t None None [] None None None None))))
  (* 1981 alter_statement: ALTER ignore_opt TABLE table_name ADD VINDEX sql_id '(' column_list ')' vindex_type_opt vindex_params_opt *)
  | 341 => get as_table 3 args (fun t => Value (YStmt (SDdl (mkDDL "add vindex" t no_table None None [] None None None None))))
  (* 1994 alter_statement: ALTER ignore_opt TABLE table_name DROP VINDEX sql_id *)
  | 342 => get as_table 3 args (fun t => Value (YStmt (SDdl (mkDDL "drop vindex" t no_table None None [] None None None None))))
  (* 2004 alter_statement: ALTER ignore_opt TABLE table_name RENAME to_opt table_name *)
  | 343 => get as_table 3 args (fun t => get as_table 6 args (fun n => Value (YStmt (SDdl (mkDDL "rename" t n None None [] None None None None)))))
  (* 2009 alter_statement: ALTER ignore_opt TABLE table_name RENAME index_opt force_eof *)
  | 344 => get as_table 3 args (fun t => Value (YStmt (SDdl (mkDDL "alter" t t None None [] None None None None))))
  (* 2014 alter_statement: ALTER VIEW table_name ddl_force_eof *)
  | 345 => get as_table 2 args (fun t => Value (YStmt (SDdl (mkDDL "alter" (to_view_name t) (to_view_name t) None None [] None None None None))))
  (* 2018 alter_statement: ALTER ignore_opt TABLE table_name partition_operation *)
  | 346 => get as_table 3 args (fun t => Value (YStmt (SDdl (mkDDL "alter" t no_table None None [] None None None None))))
  (* 2050 partition_operation: REORGANIZE PARTITION sql_id INTO openb partition_definitions closeb *)
  | 367 => Value (YNone)
  (* 2056 partition_definitions: partition_definition *)
  | 368 => Value (YNone)
  (* 2060 partition_definitions: partition_definitions ',' partition_definition *)
  | 369 => Value (YNone)
  (* 2066 partition_definition: PARTITION sql_id VALUES LESS THAN openb value_expression closeb *)
  | 370 => Value (YNone)
  (* 2070 partition_definition: PARTITION sql_id VALUES LESS THAN openb MAXVALUE closeb *)
  | 371 => Value (YNone)
  (* 2076 rename_statement: RENAME TABLE table_name TO table_name *)
  | 372 => get as_table 2 args (fun t => get as_table 4 args (fun n => Value (YStmt (SDdl (mkDDL "rename" t n None None [] None None None None)))))
  (* 2082 drop_statement: DROP TABLE exists_opt table_name *)
  | 373 => get as_table 3 args (fun t => Value (YStmt (SDdl (mkDDL "drop" t no_table None None [] None None None None))))
  (* 2090 drop_statement: DROP INDEX ID ON table_name ddl_force_eof *)
  | 374 => get as_table 4 args (fun t => Value (YStmt (SDdl (mkDDL "alter" t t None None [] None None None None))))
  (* 2095 drop_statement: DROP VIEW exists_opt table_name ddl_force_eof *)
  | 375 => get as_table 3 args (fun t => Value (YStmt (SDdl (mkDDL "drop" (to_view_name t) no_table None None [] None None None None))))
  (* 2103 drop_statement: DROP DATABASE exists_opt ID *)
  | 376 => Value (YStmt SOther)
  (* 2107 drop_statement: DROP SCHEMA exists_opt ID *)
  | 377 => Value (YStmt SOther)
  (* 2113 truncate_statement: TRUNCATE TABLE table_name *)
  | 378 => get as_table 2 args (fun t => Value (YStmt (SDdl (mkDDL "truncate" t no_table None None [] None None None None))))
  (* 2117 truncate_statement: TRUNCATE table_name *)
  | 379 => get as_table 1 args (fun t => Value (YStmt (SDdl (mkDDL "truncate" t no_table None None [] None None None None))))
  (* 2122 analyze_statement: ANALYZE TABLE table_name *)
  | 380 => get as_table 2 args (fun t => Value (YStmt (SDdl (mkDDL "alter" t t None None [] None None None None))))
  (* 2128 show_statement: SHOW BINARY ID ddl_force_eof *)
  | 381 => Value (YStmt SOther)
  (* 2132 show_statement: SHOW CHARACTER SET ddl_force_eof *)
  | 382 => Value (YStmt SOther)
  (* 2136 show_statement: SHOW CREATE DATABASE ddl_force_eof *)
  | 383 => Value (YStmt SOther)
  (* 2141 show_statement: SHOW CREATE ID ddl_force_eof *)
  | 384 => Value (YStmt SOther)
  (* 2145 show_statement: SHOW CREATE PROCEDURE ddl_force_eof *)
  | 385 => Value (YStmt SOther)
  (* 2149 show_statement: SHOW CREATE TABLE ddl_force_eof *)
  | 386 => Value (YStmt SOther)
  (* 2153 show_statement: SHOW CREATE TRIGGER ddl_force_eof *)
  | 387 => Value (YStmt SOther)
  (* 2157 show_statement: SHOW CREATE VIEW ddl_force_eof *)
  | 388 => Value (YStmt SOther)
  (* 2161 show_statement: SHOW DATABASES ddl_force_eof *)
  | 389 => Value (YStmt SOther)
  (* 2165 show_statement: SHOW INDEX ddl_force_eof *)
  | 390 => Value (YStmt SOther)
  (* 2169 show_statement: SHOW KEYS ddl_force_eof *)
  | 391 => Value (YStmt SOther)
  (* 2173 show_statement: SHOW PROCEDURE ddl_force_eof *)
  | 392 => Value (YStmt SOther)
  (* 2177 show_statement: SHOW show_session_or_global STATUS ddl_force_eof *)
  | 393 => Value (YStmt SOther)
  (* 2181 show_statement: SHOW TABLE ddl_force_eof *)
  | 394 => Value (YStmt SOther)
  (* 2185 show_statement: SHOW extended_opt full_opt tables_or_processlist from_database_opt like_or_where_opt *)
  | 395 => Value (YStmt SOther)
  (* 2195 show_statement: SHOW show_session_or_global VARIABLES ddl_force_eof *)
  | 396 => Value (YStmt SOther)
  (* 2199 show_statement: SHOW VINDEXES *)
  | 397 => Value (YStmt SOther)
  (* 2203 show_statement: SHOW VINDEXES ON table_name *)
  | 398 => Value (YStmt SOther)
  (* 2207 show_statement: SHOW VITESS_KEYSPACES *)
  | 399 => Value (YStmt SOther)
  (* 2211 show_statement: SHOW VITESS_SHARDS *)
  | 400 => Value (YStmt SOther)
  (* 2215 show_statement: SHOW VITESS_TABLETS *)
  | 401 => Value (YStmt SOther)
  (* 2219 show_statement: SHOW VSCHEMA_TABLES *)
  | 402 => Value (YStmt SOther)
  (* 2229 show_statement: SHOW ID ddl_force_eof *)
  | 403 => Value (YStmt SOther)
  (* 2235 tables_or_processlist: TABLES *)
  | 404 => get as_str 0 args (fun s => Value (YStr s))
  (* 2239 tables_or_processlist: PROCESSLIST *)
  | 405 => get as_str 0 args (fun s => Value (YStr s))
  (* 2245 extended_opt: (empty) *)
  | 406 => Value (YStr "")
  (* 2249 extended_opt: EXTENDED *)
  | 407 => Value (YStr "extended ")
  (* 2255 full_opt: (empty) *)
  | 408 => Value (YStr "")
  (* 2259 full_opt: FULL *)
  | 409 => Value (YStr "full ")
  (* 2265 from_database_opt: (empty) *)
  | 410 => Value (YStr "")
  (* 2269 from_database_opt: FROM table_id *)
  | 411 => get as_str 1 args (fun s => Value (YStr s))
  (* 2273 from_database_opt: IN table_id *)
  | 412 => get as_str 1 args (fun s => Value (YStr s))
  (* 2279 like_or_where_opt: (empty) *)
  | 413 => Value (YNone)
  (* 2283 like_or_where_opt: LIKE STRING *)
  | 414 => Value (YNone)
  (* 2287 like_or_where_opt: WHERE expression *)
  | 415 => Value (YNone)
  (* 2293 show_session_or_global: (empty) *)
  | 416 => Value (YStr "")
  (* 2297 show_session_or_global: SESSION *)
  | 417 => Value (YStr "session")
  (* 2301 show_session_or_global: GLOBAL *)
  | 418 => Value (YStr "global")
  (* 2307 use_statement: USE table_id *)
  | 419 => Value (YStmt SOther)
  (* 2311 use_statement: USE *)
  | 420 => Value (YStmt SOther)
  (* 2317 begin_statement: BEGIN *)
  | 421 => Value (YStmt SOther)
  (* 2321 begin_statement: START TRANSACTION *)
  | 422 => Value (YStmt SOther)
  (* 2327 commit_statement: COMMIT *)
  | 423 => Value (YStmt SOther)
  (* 2333 rollback_statement: ROLLBACK *)
  | 424 => Value (YStmt SOther)
  (* 2339 other_statement: DESC force_eof *)
  | 425 => Value (YStmt SOther)
  (* 2343 other_statement: DESCRIBE force_eof *)
  | 426 => Value (YStmt SOther)
  (* 2347 other_statement: EXPLAIN force_eof *)
  | 427 => Value (YStmt SOther)
  (* 2351 other_statement: REPAIR force_eof *)
  | 428 => Value (YStmt SOther)
  (* 2355 other_statement: OPTIMIZE force_eof *)
  | 429 => Value (YStmt SOther)
  (* 2360 $$430: (empty) *)
  | 430 => Value (YNone)
  (* 2364 comment_opt: $$430 comment_list *)
  | 431 => get as_strs 1 args (fun l => Value (YStrs l))
  (* 2370 comment_list: (empty) *)
  | 432 => Value (YStrs [])
  (* 2374 comment_list: comment_list COMMENT *)
  | 433 => get as_strs 0 args (fun l => get as_str 1 args (fun s => Value (YStrs (l ++ [s]))))
  (* 2380 union_op: UNION *)
  | 434 => Value (YStr "union")
  (* 2384 union_op: UNION ALL *)
  | 435 => Value (YStr "union all")
  (* 2388 union_op: UNION DISTINCT *)
  | 436 => Value (YStr "union distinct")
  (* 2393 cache_opt: (empty) *)
  | 437 => Value (YStr "")
  (* 2397 cache_opt: SQL_NO_CACHE *)
  | 438 => Value (YStr "sql_no_cache ")
  (* 2401 cache_opt: SQL_CACHE *)
  | 439 => Value (YStr "sql_cache ")
  (* 2406 distinct_opt: (empty) *)
  | 440 => Value (YStr "")
  (* 2410 distinct_opt: DISTINCT *)
  | 441 => Value (YStr "distinct ")
  (* 2415 straight_join_opt: (empty) *)
  | 442 => Value (YStr "")
  (* 2419 straight_join_opt: STRAIGHT_JOIN *)
  | 443 => Value (YStr "straight_join ")
  | _ => first_value args
  end%positive.

Definition table_expressions (p : positive) (args : list yval) : reduced :=
  match p with
  (* 2424 select_expression_list_opt: (empty) *)
  | 444 => Value (YTexts [])
  (* 2428 select_expression_list_opt: select_expression_list *)
  | 445 => get as_texts 0 args (fun l => Value (YTexts l))
  (* 2434 select_expression_list: select_expression *)
  | 446 => get as_text 0 args (fun e => Value (YTexts [e]))
  (* 2438 select_expression_list: select_expression_list ',' select_expression *)
  | 447 => get as_texts 0 args (fun l => get as_text 2 args (fun e => Value (YTexts (l ++ [e]))))
  (* 2444 select_expression: '*' *)
  | 448 => Value (YText (lit "*"))
  (* 2448 select_expression: expression as_ci_opt *)
  | 449 => get as_expr 0 args (fun e => get as_str 1 args (fun n => Value (YText (cat [x_text e; lit (alias n)]))))
  (* 2452 select_expression: table_id '.' '*' *)
  | 450 => get as_str 0 args (fun t => Value (YText (lit (format_table (mkTableName t "") ++ ".*"))))
  (* 2456 select_expression: table_id '.' reserved_table_id '.' '*' *)
  | 451 => get as_str 0 args (fun q => get as_str 2 args (fun t => Value (YText (lit (format_table (mkTableName t q) ++ ".*")))))
  (* 2461 as_ci_opt: (empty) *)
  | 452 => Value (YStr "")
  (* 2465 as_ci_opt: col_alias *)
  | 453 => get as_str 0 args (fun s => Value (YStr s))
  (* 2469 as_ci_opt: AS col_alias *)
  | 454 => get as_str 1 args (fun s => Value (YStr s))
  (* 2476 col_alias: STRING *)
  | 456 => get as_str 0 args (fun s => Value (YStr s))
  (* 2481 from_opt: (empty) *)
  | 457 => Value (YTexts [lit "dual"])
  (* 2485 from_opt: FROM table_references *)
  | 458 => get as_texts 1 args (fun l => Value (YTexts l))
  (* 2491 table_references: table_reference *)
  | 459 => get as_text 0 args (fun t => Value (YTexts [t]))
  (* 2495 table_references: table_references ',' table_reference *)
  | 460 => get as_texts 0 args (fun l => get as_text 2 args (fun t => Value (YTexts (l ++ [t]))))
  (* 2505 table_factor: aliased_table_name *)
  | 463 => get as_text 0 args (fun t => Value (YText t))
  (* 2509 table_factor: subquery as_opt table_id *)
  | 464 => get as_text 0 args (fun q => get as_str 2 args (fun n => Value (YText (cat [q; lit (alias n)]))))
  (* 2513 table_factor: openb table_references closeb *)
  | 465 => get as_texts 1 args (fun l => Value (YText (parens (commas l))))
  (* 2519 aliased_table_name: table_name as_opt_id index_hint_list *)
  | 466 => get as_table 0 args (fun t => get as_str 1 args (fun n => get as_str 2 args (fun h => Value (YText (lit (format_table t ++ alias n ++ h))))))
  (* 2523 aliased_table_name: table_name PARTITION openb partition_list closeb as_opt_id index_hint_list *)
  | 467 => get as_table 0 args (fun t => get as_strs 3 args (fun p => get as_str 5 args (fun n => get as_str 6 args (fun h => Value (YText (lit (format_table t ++ partitions p ++ alias n ++ h)))))))
  (* 2529 column_list: sql_id *)
  | 468 => get as_str 0 args (fun s => Value (YStrs [s]))
  (* 2534 column_list: KEY *)
  | 469 => get as_str 0 args (fun s => Value (YStrs [s]))
  (* 2538 column_list: column_list ',' sql_id *)
  | 470 => get as_strs 0 args (fun l => get as_str 2 args (fun s => Value (YStrs (l ++ [s]))))
  (* 2544 partition_list: sql_id *)
  | 471 => get as_str 0 args (fun s => Value (YStrs [s]))
  (* 2548 partition_list: partition_list ',' sql_id *)
  | 472 => get as_strs 0 args (fun l => get as_str 2 args (fun s => Value (YStrs (l ++ [s]))))
  (* 2561 join_table: table_reference inner_join table_factor join_condition_opt *)
  | 473 => get as_text 0 args (fun l => get as_str 1 args (fun j => get as_text 2 args (fun r => get as_text 3 args (fun c => Value (YText (cat [l; lit (" " ++ j ++ " "); r; c]))))))
  (* 2565 join_table: table_reference straight_join table_factor on_expression_opt *)
  | 474 => get as_text 0 args (fun l => get as_str 1 args (fun j => get as_text 2 args (fun r => get as_text 3 args (fun c => Value (YText (cat [l; lit (" " ++ j ++ " "); r; c]))))))
  (* 2569 join_table: table_reference outer_join table_reference join_condition *)
  | 475 => get as_text 0 args (fun l => get as_str 1 args (fun j => get as_text 2 args (fun r => get as_text 3 args (fun c => Value (YText (cat [l; lit (" " ++ j ++ " "); r; c]))))))
  (* 2573 join_table: table_reference natural_join table_factor *)
  | 476 => get as_text 0 args (fun l => get as_str 1 args (fun j => get as_text 2 args (fun r => Value (YText (cat [l; lit (" " ++ j ++ " "); r])))))
  (* 2579 join_condition: ON expression *)
  | 477 => get as_expr 1 args (fun e => Value (YText (cat [lit " on "; x_text e])))
  (* 2581 join_condition: USING '(' column_list ')' *)
  | 478 => get as_strs 2 args (fun l => Value (YText (lit (" using " ++ columns l))))
  (* 2585 join_condition_opt: (empty) *)
  | 479 => Value (YText (lit ""))
  (* 2587 join_condition_opt: join_condition *)
  | 480 => get as_text 0 args (fun t => Value (YText t))
  (* 2591 on_expression_opt: (empty) *)
  | 481 => Value (YText (lit ""))
  (* 2593 on_expression_opt: ON expression *)
  | 482 => get as_expr 1 args (fun e => Value (YText (cat [lit " on "; x_text e])))
  (* 2596 as_opt: (empty) *)
  | 483 => Value (YNone)
  (* 2598 as_opt: AS *)
  | 484 => Value (YNone)
  (* 2601 as_opt_id: (empty) *)
  | 485 => Value (YStr "")
  (* 2605 as_opt_id: table_alias *)
  | 486 => get as_str 0 args (fun s => Value (YStr s))
  (* 2609 as_opt_id: AS table_alias *)
  | 487 => get as_str 1 args (fun s => Value (YStr s))
  (* 2616 table_alias: STRING *)
  | 489 => get as_str 0 args (fun s => Value (YStr s))
  (* 2622 inner_join: JOIN *)
  | 490 => Value (YStr "join")
  (* 2626 inner_join: INNER JOIN *)
  | 491 => Value (YStr "join")
  (* 2630 inner_join: CROSS JOIN *)
  | 492 => Value (YStr "join")
  (* 2636 straight_join: STRAIGHT_JOIN *)
  | 493 => Value (YStr "straight_join")
  (* 2642 outer_join: LEFT JOIN *)
  | 494 => Value (YStr "left join")
  (* 2646 outer_join: LEFT OUTER JOIN *)
  | 495 => Value (YStr "left join")
  (* 2650 outer_join: RIGHT JOIN *)
  | 496 => Value (YStr "right join")
  (* 2654 outer_join: RIGHT OUTER JOIN *)
  | 497 => Value (YStr "right join")
  (* 2660 natural_join: NATURAL JOIN *)
  | 498 => Value (YStr "natural join")
  (* 2664 natural_join: NATURAL outer_join *)
  | 499 => get as_str 1 args (fun s => Value (YStr (if String.eqb s "left join" then "natural left join" else "natural right join")))
  (* 2674 into_table_name: INTO table_name *)
  | 500 => get as_table 1 args (fun t => Value (YTable t))
  (* 2678 into_table_name: table_name *)
  | 501 => get as_table 0 args (fun t => Value (YTable t))
  (* 2684 table_name: table_id *)
  | 502 => get as_str 0 args (fun t => Value (YTable (mkTableName t "")))
  (* 2688 table_name: table_id '.' reserved_table_id *)
  | 503 => get as_str 0 args (fun q => get as_str 2 args (fun t => Value (YTable (mkTableName t q))))
  (* 2693 index_hint_list: (empty) *)
  | 504 => Value (YStr "")
  (* 2697 index_hint_list: USE INDEX openb column_list closeb *)
  | 505 => get as_strs 3 args (fun l => Value (YStr (" use index " ++ columns l)))
  (* 2701 index_hint_list: IGNORE INDEX openb column_list closeb *)
  | 506 => get as_strs 3 args (fun l => Value (YStr (" ignore index " ++ columns l)))
  (* 2705 index_hint_list: FORCE INDEX openb column_list closeb *)
  | 507 => get as_strs 3 args (fun l => Value (YStr (" force index " ++ columns l)))
  (* 2710 where_expression_opt: (empty) *)
  | 508 => Value (YExpr None)
  (* 2714 where_expression_opt: WHERE expression *)
  | 509 => get as_expr_opt 1 args (fun e => Value (YExpr e))
  (* 2719 include_columns_opt: (empty) *)
  | 510 => Value (YStrs [])
  (* 2723 include_columns_opt: INCLUDE '(' column_list ')' *)
  | 511 => get as_strs 2 args (fun l => Value (YStrs l))
  | _ => first_value args
  end%positive.

Definition expressions (p : positive) (args : list yval) : reduced :=
  match p with
  (* 2729 expression: condition *)
  | 512 => get as_expr_opt 0 args (fun e => Value (YExpr e))
  (* 2733 expression: expression AND expression *)
  | 513 => get as_expr 0 args (fun l => get as_expr 2 args (fun r => Value (YExpr (Some (other (cat [x_text l; lit " and "; x_text r]))))))
  (* 2737 expression: expression OR expression *)
  | 514 => get as_expr 0 args (fun l => get as_expr 2 args (fun r => Value (YExpr (Some (other (cat [x_text l; lit " or "; x_text r]))))))
  (* 2741 expression: NOT expression *)
  | 515 => get as_expr 1 args (fun e => Value (YExpr (Some (other (cat [lit "not "; x_text e])))))
  (* 2745 expression: expression IS is_suffix *)
  | 516 => get as_expr 0 args (fun e => get as_str 2 args (fun s => Value (YExpr (Some (other (cat [x_text e; lit (" " ++ s)]))))))
  (* 2749 expression: value_expression *)
  | 517 => get as_expr_opt 0 args (fun e => Value (YExpr e))
  (* 2753 expression: DEFAULT default_opt *)
  | 518 => get as_str 1 args (fun s => Value (YExpr (Some (other (lit ("default" ++ (if String.eqb s "" then "" else "(" ++ s ++ ")")))))))
  (* 2759 default_opt: (empty) *)
  | 519 => Value (YStr "")
  (* 2763 default_opt: openb ID closeb *)
  | 520 => get as_str 1 args (fun s => Value (YStr s))
  (* 2769 boolean_value: TRUE *)
  | 521 => Value (YBool true)
  (* 2773 boolean_value: FALSE *)
  | 522 => Value (YBool false)
  (* 2779 condition: value_expression compare value_expression *)
  | 523 => get as_expr 0 args (fun l => get as_str 1 args (fun o => get as_expr 2 args (fun r => Value (YExpr (Some (binary o l r))))))
  (* 2783 condition: value_expression IN col_tuple *)
  | 524 => get as_expr 0 args (fun l => get as_expr 2 args (fun r => Value (YExpr (Some (binary "in" l r)))))
  (* 2787 condition: value_expression NOT IN col_tuple *)
  | 525 => get as_expr 0 args (fun l => get as_expr 3 args (fun r => Value (YExpr (Some (binary "not in" l r)))))
  (* 2791 condition: value_expression LIKE value_expression like_escape_opt *)
  | 526 => get as_expr 0 args (fun l => get as_expr 2 args (fun r => get as_expr_opt 3 args (fun e => Value (YExpr (Some (like_expr "like" l r e))))))
  (* 2795 condition: value_expression NOT LIKE value_expression like_escape_opt *)
  | 527 => get as_expr 0 args (fun l => get as_expr 3 args (fun r => get as_expr_opt 4 args (fun e => Value (YExpr (Some (like_expr "not like" l r e))))))
  (* 2799 condition: value_expression REGEXP value_expression *)
  | 528 => get as_expr 0 args (fun l => get as_expr 2 args (fun r => Value (YExpr (Some (binary "regexp" l r)))))
  (* 2803 condition: value_expression NOT REGEXP value_expression *)
  | 529 => get as_expr 0 args (fun l => get as_expr 3 args (fun r => Value (YExpr (Some (binary "not regexp" l r)))))
  (* 2807 condition: value_expression BETWEEN value_expression AND value_expression *)
  | 530 => get as_expr 0 args (fun l => get as_expr 2 args (fun f => get as_expr 4 args (fun t => Value (YExpr (Some (other (cat [x_text l; lit " between "; x_text f; lit " and "; x_text t])))))))
  (* 2811 condition: value_expression NOT BETWEEN value_expression AND value_expression *)
  | 531 => get as_expr 0 args (fun l => get as_expr 3 args (fun f => get as_expr 5 args (fun t => Value (YExpr (Some (other (cat [x_text l; lit " not between "; x_text f; lit " and "; x_text t])))))))
  (* 2815 condition: EXISTS subquery *)
  | 532 => get as_text 1 args (fun q => Value (YExpr (Some (other (cat [lit "exists "; q])))))
  (* 2821 is_suffix: NULL *)
  | 533 => Value (YStr "is null")
  (* 2825 is_suffix: NOT NULL *)
  | 534 => Value (YStr "is not null")
  (* 2829 is_suffix: TRUE *)
  | 535 => Value (YStr "is true")
  (* 2833 is_suffix: NOT TRUE *)
  | 536 => Value (YStr "is not true")
  (* 2837 is_suffix: FALSE *)
  | 537 => Value (YStr "is false")
  (* 2841 is_suffix: NOT FALSE *)
  | 538 => Value (YStr "is not false")
  (* 2847 compare: '=' *)
  | 539 => Value (YStr "=")
  (* 2851 compare: '<' *)
  | 540 => Value (YStr "<")
  (* 2855 compare: '>' *)
  | 541 => Value (YStr ">")
  (* 2859 compare: LE *)
  | 542 => Value (YStr "<=")
  (* 2863 compare: GE *)
  | 543 => Value (YStr ">=")
  (* 2867 compare: NE *)
  | 544 => Value (YStr "!=")
  (* 2871 compare: NULL_SAFE_EQUAL *)
  | 545 => Value (YStr "<=>")
  (* 2876 like_escape_opt: (empty) *)
  | 546 => Value (YExpr None)
  (* 2880 like_escape_opt: ESCAPE value_expression *)
  | 547 => get as_expr_opt 1 args (fun e => Value (YExpr e))
  (* 2886 col_tuple: row_tuple *)
  | 548 => get as_exprs 0 args (fun l => Value (YExpr (Some (other (parens (commas (map x_text l)))))))
  (* 2890 col_tuple: subquery *)
  | 549 => get as_text 0 args (fun q => Value (YExpr (Some (other q))))
  (* 2894 col_tuple: LIST_ARG *)
  | 550 => get as_str 0 args (fun s => Value (YExpr (Some (other (lit s)))))
  (* 2900 subquery: openb select_statement closeb *)
  | 551 => get as_text 1 args (fun s => Value (YText (parens s)))
  (* 2906 expression_list: expression *)
  | 552 => get as_expr 0 args (fun e => Value (YExprs [e]))
  (* 2910 expression_list: expression_list ',' expression *)
  | 553 => get as_exprs 0 args (fun l => get as_expr 2 args (fun e => Value (YExprs (l ++ [e]))))
  (* 2916 value_expression: value *)
  | 554 => get as_expr_opt 0 args (fun e => Value (YExpr e))
  (* 2920 value_expression: boolean_value *)
  | 555 => get as_bool 0 args (fun b => Value (YExpr (Some (other (lit (if b then "true" else "false"))))))
  (* 2924 value_expression: column_name *)
  | 556 => get as_col_name 0 args (fun c => Value (YExpr (Some (other (lit (snd c))))))
  (* 2928 value_expression: tuple_expression *)
  | 557 => get as_expr_opt 0 args (fun e => Value (YExpr e))
  (* 2932 value_expression: subquery *)
  | 558 => get as_text 0 args (fun q => Value (YExpr (Some (other q))))
  (* 2936 value_expression: value_expression '&' value_expression *)
  | 559 => get as_expr 0 args (fun l => get as_expr 2 args (fun r => Value (YExpr (Some (binary "&" l r)))))
  (* 2940 value_expression: value_expression '|' value_expression *)
  | 560 => get as_expr 0 args (fun l => get as_expr 2 args (fun r => Value (YExpr (Some (binary "|" l r)))))
  (* 2944 value_expression: value_expression '^' value_expression *)
  | 561 => get as_expr 0 args (fun l => get as_expr 2 args (fun r => Value (YExpr (Some (binary "^" l r)))))
  (* 2948 value_expression: value_expression '+' value_expression *)
  | 562 => get as_expr 0 args (fun l => get as_expr 2 args (fun r => Value (YExpr (Some (binary "+" l r)))))
  (* 2952 value_expression: value_expression '-' value_expression *)
  | 563 => get as_expr 0 args (fun l => get as_expr 2 args (fun r => Value (YExpr (Some (binary "-" l r)))))
  (* 2956 value_expression: value_expression '*' value_expression *)
  | 564 => get as_expr 0 args (fun l => get as_expr 2 args (fun r => Value (YExpr (Some (binary "*" l r)))))
  (* 2960 value_expression: value_expression '/' value_expression *)
  | 565 => get as_expr 0 args (fun l => get as_expr 2 args (fun r => Value (YExpr (Some (binary "/" l r)))))
  (* 2964 value_expression: value_expression DIV value_expression *)
  | 566 => get as_expr 0 args (fun l => get as_expr 2 args (fun r => Value (YExpr (Some (binary "div" l r)))))
  (* 2968 value_expression: value_expression '%' value_expression *)
  | 567 => get as_expr 0 args (fun l => get as_expr 2 args (fun r => Value (YExpr (Some (binary "%" l r)))))
  (* 2972 value_expression: value_expression MOD value_expression *)
  | 568 => get as_expr 0 args (fun l => get as_expr 2 args (fun r => Value (YExpr (Some (binary "%" l r)))))
  (* 2976 value_expression: value_expression SHIFT_LEFT value_expression *)
  | 569 => get as_expr 0 args (fun l => get as_expr 2 args (fun r => Value (YExpr (Some (binary "<<" l r)))))
  (* 2980 value_expression: value_expression SHIFT_RIGHT value_expression *)
  | 570 => get as_expr 0 args (fun l => get as_expr 2 args (fun r => Value (YExpr (Some (binary ">>" l r)))))
  (* 2984 value_expression: column_name JSON_EXTRACT_OP value *)
  | 571 => get as_col_name 0 args (fun c => get as_expr 2 args (fun r => Value (YExpr (Some (binary "->" (other (lit (snd c))) r)))))
  (* 2988 value_expression: column_name JSON_UNQUOTE_EXTRACT_OP value *)
  | 572 => get as_col_name 0 args (fun c => get as_expr 2 args (fun r => Value (YExpr (Some (binary "->>" (other (lit (snd c))) r)))))
  (* 2992 value_expression: value_expression COLLATE charset *)
  | 573 => get as_expr 0 args (fun e => get as_str 2 args (fun c => Value (YExpr (Some (other (cat [x_text e; lit (" collate " ++ c)]))))))
  (* 2996 value_expression: BINARY value_expression *)
  | 574 => get as_expr 1 args (fun e => Value (YExpr (Some (unary "binary " e))))
  (* 3000 value_expression: UNDERSCORE_BINARY value_expression *)
  | 575 => get as_expr 1 args (fun e => Value (YExpr (Some (unary "_binary " e))))
  (* 3004 value_expression: '+' value_expression *)
  | 576 => get as_expr 1 args (fun e => Value (YExpr (Some (match x_kind e with XInt _ => e | _ => unary "+" e end))))
  (* 3012 value_expression: '-' value_expression *)
  | 577 => get as_expr 1 args (fun e => Value (YExpr (Some (match x_kind e with XInt n => int_expr (negated n) | _ => unary "-" e end))))
  (* 3026 value_expression: '~' value_expression *)
  | 578 => get as_expr 1 args (fun e => Value (YExpr (Some (unary "~" e))))
  (* 3030 value_expression: '!' value_expression *)
  | 579 => get as_expr 1 args (fun e => Value (YExpr (Some (unary "!" e))))
  (* 3034 value_expression: INTERVAL value_expression sql_id *)
  | 580 => get as_expr 1 args (fun e => get as_str 2 args (fun u => Value (YExpr (Some (other (cat [lit "interval "; x_text e; lit (" " ++ u)]))))))
  (* 3042 value_expression: value_expression TYPECAST simple_convert_type *)
  | 581 => get as_expr 0 args (fun e => get as_text 2 args (fun t => Value (YExpr (Some (other (cat [lit "convert("; x_text e; lit ", "; t; lit ")"]))))))
  (* 3056 function_call_generic: sql_id openb select_expression_list_opt closeb *)
  | 586 => get as_str 0 args (fun n => get as_texts 2 args (fun l => Value (YExpr (Some (func "" n false l)))))
  (* 3060 function_call_generic: sql_id openb DISTINCT select_expression_list closeb *)
  | 587 => get as_str 0 args (fun n => get as_texts 3 args (fun l => Value (YExpr (Some (func "" n true l)))))
  (* 3064 function_call_generic: table_id '.' reserved_sql_id openb select_expression_list_opt closeb *)
  | 588 => get as_str 0 args (fun q => get as_str 2 args (fun n => get as_texts 4 args (fun l => Value (YExpr (Some (func q n false l))))))
  (* 3074 function_call_keyword: LEFT openb select_expression_list closeb *)
  | 589 => get as_texts 2 args (fun l => Value (YExpr (Some (func "" "left" false l))))
  (* 3078 function_call_keyword: RIGHT openb select_expression_list closeb *)
  | 590 => get as_texts 2 args (fun l => Value (YExpr (Some (func "" "right" false l))))
  (* 3082 function_call_keyword: CONVERT openb expression ',' convert_type closeb *)
  | 591 => get as_expr 2 args (fun e => get as_text 4 args (fun t => Value (YExpr (Some (other (cat [lit "convert("; x_text e; lit ", "; t; lit ")"]))))))
  (* 3086 function_call_keyword: CAST openb expression AS convert_type closeb *)
  | 592 => get as_expr 2 args (fun e => get as_text 4 args (fun t => Value (YExpr (Some (other (cat [lit "convert("; x_text e; lit ", "; t; lit ")"]))))))
  (* 3090 function_call_keyword: CONVERT openb expression USING charset closeb *)
  | 593 => get as_expr 2 args (fun e => get as_str 4 args (fun c => Value (YExpr (Some (other (cat [lit "convert("; x_text e; lit (" using " ++ c ++ ")")]))))))
  (* 3094 function_call_keyword: SUBSTR openb column_name ',' value_expression closeb *)
  | 594 => get as_col_name 2 args (fun c => get as_expr 4 args (fun f => Value (YExpr (Some (other (cat [lit ("substr(" ++ snd c ++ ", "); x_text f; lit ")"]))))))
  (* 3098 function_call_keyword: SUBSTR openb column_name ',' value_expression ',' value_expression closeb *)
  | 595 => get as_col_name 2 args (fun c => get as_expr 4 args (fun f => get as_expr 6 args (fun t => Value (YExpr (Some (other (cat [lit ("substr(" ++ snd c ++ ", "); x_text f; lit ", "; x_text t; lit ")"])))))))
  (* 3102 function_call_keyword: SUBSTR openb column_name FROM value_expression FOR value_expression closeb *)
  | 596 => get as_col_name 2 args (fun c => get as_expr 4 args (fun f => get as_expr 6 args (fun t => Value (YExpr (Some (other (cat [lit ("substr(" ++ snd c ++ ", "); x_text f; lit ", "; x_text t; lit ")"])))))))
  (* 3106 function_call_keyword: SUBSTRING openb column_name ',' value_expression closeb *)
  | 597 => get as_col_name 2 args (fun c => get as_expr 4 args (fun f => Value (YExpr (Some (other (cat [lit ("substr(" ++ snd c ++ ", "); x_text f; lit ")"]))))))
  (* 3110 function_call_keyword: SUBSTRING openb column_name ',' value_expression ',' value_expression closeb *)
  | 598 => get as_col_name 2 args (fun c => get as_expr 4 args (fun f => get as_expr 6 args (fun t => Value (YExpr (Some (other (cat [lit ("substr(" ++ snd c ++ ", "); x_text f; lit ", "; x_text t; lit ")"])))))))
  (* 3114 function_call_keyword: SUBSTRING openb column_name FROM value_expression FOR value_expression closeb *)
  | 599 => get as_col_name 2 args (fun c => get as_expr 4 args (fun f => get as_expr 6 args (fun t => Value (YExpr (Some (other (cat [lit ("substr(" ++ snd c ++ ", "); x_text f; lit ", "; x_text t; lit ")"])))))))
  (* 3118 function_call_keyword: MATCH openb select_expression_list closeb AGAINST openb value_expression match_option closeb *)
  | 600 => get as_texts 2 args (fun l => get as_expr 6 args (fun e => get as_str 7 args (fun o => Value (YExpr (Some (other (cat [lit "match("; commas l; lit ") against ("; x_text e; lit (o ++ ")")])))))))
  (* 3122 function_call_keyword: GROUP_CONCAT openb distinct_opt select_expression_list order_by_opt separator_opt closeb *)
  | 601 => get as_str 2 args (fun d => get as_texts 3 args (fun l => get as_texts 4 args (fun o => get as_str 5 args (fun s => Value (YExpr (Some (other (cat [lit ("group_concat(" ++ d); commas l; order_by o; lit (s ++ ")")]))))))))
  (* 3126 function_call_keyword: CASE expression_opt when_expression_list else_expression_opt END *)
  | 602 => get as_expr_opt 1 args (fun e => get as_texts 2 args (fun w => get as_expr_opt 3 args (fun o => Value (YExpr (Some (case_expr e w o))))))
  (* 3130 function_call_keyword: VALUES openb column_name closeb *)
  | 603 => get as_col_name 2 args (fun c => Value (YExpr (Some (other (lit ("values(" ++ snd c ++ ")"))))))
  (* 3140 function_call_nonkeyword: CURRENT_TIMESTAMP func_datetime_precision_opt *)
  | 604 => Value (YExpr (Some (func "" "current_timestamp" false [])))
  (* 3144 function_call_nonkeyword: UTC_TIMESTAMP func_datetime_precision_opt *)
  | 605 => Value (YExpr (Some (func "" "utc_timestamp" false [])))
  (* 3148 function_call_nonkeyword: UTC_TIME func_datetime_precision_opt *)
  | 606 => Value (YExpr (Some (func "" "utc_time" false [])))
  (* 3152 function_call_nonkeyword: UTC_DATE func_datetime_precision_opt *)
  | 607 => Value (YExpr (Some (func "" "utc_date" false [])))
  (* 3157 function_call_nonkeyword: LOCALTIME func_datetime_precision_opt *)
  | 608 => Value (YExpr (Some (func "" "localtime" false [])))
  (* 3162 function_call_nonkeyword: LOCALTIMESTAMP func_datetime_precision_opt *)
  | 609 => Value (YExpr (Some (func "" "localtimestamp" false [])))
  (* 3167 function_call_nonkeyword: CURRENT_DATE func_datetime_precision_opt *)
  | 610 => Value (YExpr (Some (func "" "current_date" false [])))
  (* 3172 function_call_nonkeyword: CURRENT_TIME func_datetime_precision_opt *)
  | 611 => Value (YExpr (Some (func "" "current_time" false [])))
  (* 3176 function_call_nonkeyword: TYPECAST simple_convert_type *)
  | 612 => Value (YExpr (Some (other None)))
  (* 3190 function_call_conflict: IF openb select_expression_list closeb *)
  | 615 => get as_texts 2 args (fun l => Value (YExpr (Some (func "" "if" false l))))
  (* 3194 function_call_conflict: DATABASE openb select_expression_list_opt closeb *)
  | 616 => get as_texts 2 args (fun l => Value (YExpr (Some (func "" "database" false l))))
  (* 3198 function_call_conflict: MOD openb select_expression_list closeb *)
  | 617 => get as_texts 2 args (fun l => Value (YExpr (Some (func "" "mod" false l))))
  (* 3202 function_call_conflict: REPLACE openb select_expression_list closeb *)
  | 618 => get as_texts 2 args (fun l => Value (YExpr (Some (func "" "replace" false l))))
  (* 3208 match_option: (empty) *)
  | 619 => Value (YStr "")
  (* 3212 match_option: IN BOOLEAN MODE *)
  | 620 => Value (YStr " in boolean mode")
  (* 3216 match_option: IN NATURAL LANGUAGE MODE *)
  | 621 => Value (YStr " in natural language mode")
  (* 3220 match_option: IN NATURAL LANGUAGE MODE WITH QUERY EXPANSION *)
  | 622 => Value (YStr " in natural language mode with query expansion")
  (* 3224 match_option: WITH QUERY EXPANSION *)
  | 623 => Value (YStr " with query expansion")
  (* 3230 charset: ID *)
  | 624 => get as_str 0 args (fun s => Value (YStr s))
  (* 3234 charset: STRING *)
  | 625 => get as_str 0 args (fun s => Value (YStr s))
  (* 3240 convert_type: BINARY length_opt *)
  | 626 => get as_str 0 args (fun s => get as_val 1 args (fun l => Value (YText (convert_type s l None "" ""))))
  (* 3244 convert_type: CHAR length_opt charset_opt *)
  | 627 => get as_str 0 args (fun s => get as_val 1 args (fun l => get as_str 2 args (fun c => Value (YText (convert_type s l None " character set" c)))))
  (* 3248 convert_type: CHAR length_opt ID *)
  | 628 => get as_str 0 args (fun s => get as_val 1 args (fun l => get as_str 2 args (fun c => Value (YText (convert_type s l None "" c)))))
  (* 3252 convert_type: DATE *)
  | 629 => get as_str 0 args (fun s => Value (YText (convert_type s None None "" "")))
  (* 3256 convert_type: DATETIME length_opt *)
  | 630 => get as_str 0 args (fun s => get as_val 1 args (fun l => Value (YText (convert_type s l None "" ""))))
  (* 3260 convert_type: DECIMAL decimal_length_opt *)
  | 631 => get as_str 0 args (fun s => get as_lens 1 args (fun l => Value (YText (convert_type s (fst l) (snd l) "" ""))))
  (* 3266 convert_type: JSON *)
  | 632 => get as_str 0 args (fun s => Value (YText (convert_type s None None "" "")))
  (* 3270 convert_type: JSONB *)
  | 633 => get as_str 0 args (fun s => Value (YText (convert_type s None None "" "")))
  (* 3274 convert_type: NCHAR length_opt *)
  | 634 => get as_str 0 args (fun s => get as_val 1 args (fun l => Value (YText (convert_type s l None "" ""))))
  (* 3278 convert_type: SIGNED *)
  | 635 => get as_str 0 args (fun s => Value (YText (convert_type s None None "" "")))
  (* 3282 convert_type: SIGNED INTEGER *)
  | 636 => get as_str 0 args (fun s => Value (YText (convert_type s None None "" "")))
  (* 3286 convert_type: TIME length_opt *)
  | 637 => get as_str 0 args (fun s => get as_val 1 args (fun l => Value (YText (convert_type s l None "" ""))))
  (* 3290 convert_type: UNSIGNED *)
  | 638 => get as_str 0 args (fun s => Value (YText (convert_type s None None "" "")))
  (* 3294 convert_type: UNSIGNED INTEGER *)
  | 639 => get as_str 0 args (fun s => Value (YText (convert_type s None None "" "")))
  (* 3300 simple_convert_type: BINARY *)
  | 640 => get as_str 0 args (fun s => Value (YText (convert_type s None None "" "")))
  (* 3304 simple_convert_type: CHARACTER VARYING *)
  | 641 => get as_str 0 args (fun s => get as_str 1 args (fun y => Value (YText (convert_type (s ++ " " ++ y) None None "" ""))))
  (* 3308 simple_convert_type: DATE *)
  | 642 => get as_str 0 args (fun s => Value (YText (convert_type s None None "" "")))
  (* 3312 simple_convert_type: DATETIME *)
  | 643 => get as_str 0 args (fun s => Value (YText (convert_type s None None "" "")))
  (* 3316 simple_convert_type: int_type *)
  | 644 => get as_type 0 args (fun t => Value (YText (convert_type (ct_type t) None None "" "")))
  (* 3320 simple_convert_type: bool_type *)
  | 645 => get as_type 0 args (fun t => Value (YText (convert_type (ct_type t) None None "" "")))
  (* 3324 simple_convert_type: TEXT *)
  | 646 => get as_str 0 args (fun s => Value (YText (convert_type s None None "" "")))
  (* 3329 expression_opt: (empty) *)
  | 647 => Value (YExpr None)
  (* 3333 expression_opt: expression *)
  | 648 => get as_expr_opt 0 args (fun e => Value (YExpr e))
  (* 3338 separator_opt: (empty) *)
  | 649 => Value (YStr "")
  (* 3342 separator_opt: SEPARATOR STRING *)
  | 650 => get as_str 1 args (fun s => Value (YStr (" separator '" ++ s ++ "'")))
  (* 3348 when_expression_list: when_expression *)
  | 651 => get as_text 0 args (fun w => Value (YTexts [w]))
  (* 3352 when_expression_list: when_expression_list when_expression *)
  | 652 => get as_texts 0 args (fun l => get as_text 1 args (fun w => Value (YTexts (l ++ [w]))))
  (* 3358 when_expression: WHEN expression THEN expression *)
  | 653 => get as_expr 1 args (fun c => get as_expr 3 args (fun v => Value (YText (cat [lit "when "; x_text c; lit " then "; x_text v]))))
  (* 3363 else_expression_opt: (empty) *)
  | 654 => Value (YExpr None)
  (* 3367 else_expression_opt: ELSE expression *)
  | 655 => get as_expr_opt 1 args (fun e => Value (YExpr e))
  (* 3373 column_name: sql_id *)
  | 656 => get as_str 0 args (fun n => Value (YColName n (format_id n)))
  (* 3377 column_name: table_id '.' reserved_sql_id *)
  | 657 => get as_str 0 args (fun t => get as_str 2 args (fun n => Value (YColName n (format_table (mkTableName t "") ++ "." ++ format_id n))))
  (* 3381 column_name: table_id '.' reserved_table_id '.' reserved_sql_id *)
  | 658 => get as_str 0 args (fun q => get as_str 2 args (fun t => get as_str 4 args (fun n => Value (YColName n (format_table (mkTableName t q) ++ "." ++ format_id n)))))
  | _ => first_value args
  end%positive.

Definition values_and_names (p : positive) (args : list yval) : reduced :=
  match p with
  (* 3387 value: STRING *)
  | 659 => get as_str 0 args (fun s => Value (YExpr (Some (other (lit (encode_bytes_sql s))))))
  (* 3391 value: HEX *)
  | 660 => get as_str 0 args (fun s => Value (YExpr (Some (other (lit ("X'" ++ s ++ "'"))))))
  (* 3395 value: BIT_LITERAL *)
  | 661 => get as_str 0 args (fun s => Value (YExpr (Some (other (lit ("B'" ++ s ++ "'"))))))
  (* 3399 value: INTEGRAL *)
  | 662 => get as_str 0 args (fun s => Value (YExpr (Some (int_expr s))))
  (* 3403 value: FLOAT *)
  | 663 => get as_str 0 args (fun s => Value (YExpr (Some (other (lit s)))))
  (* 3407 value: HEXNUM *)
  | 664 => get as_str 0 args (fun s => Value (YExpr (Some (other (lit s)))))
  (* 3411 value: VALUE_ARG *)
  | 665 => get as_str 0 args (fun s => Value (YExpr (Some (other (lit s)))))
  (* 3415 value: NULL *)
  | 666 => Value (YExpr (Some (mkXp (lit "null") XNull)))
  (* 3421 num_val: sql_id *)
  | 667 => get as_str 0 args (fun s => if String.eqb (to_lower s) "value" then Value (YExpr (Some (int_expr "1"))) else ReturnOne)
  (* 3430 num_val: INTEGRAL VALUES *)
  | 668 => get as_str 0 args (fun s => Value (YExpr (Some (int_expr s))))
  (* 3434 num_val: VALUE_ARG VALUES *)
  | 669 => get as_str 0 args (fun s => Value (YExpr (Some (other (lit s)))))
  (* 3439 group_by_opt: (empty) *)
  | 670 => Value (YExprs [])
  (* 3443 group_by_opt: GROUP BY expression_list *)
  | 671 => get as_exprs 2 args (fun l => Value (YExprs l))
  (* 3448 having_opt: (empty) *)
  | 672 => Value (YExpr None)
  (* 3452 having_opt: HAVING expression *)
  | 673 => get as_expr_opt 1 args (fun e => Value (YExpr e))
  (* 3457 order_by_opt: (empty) *)
  | 674 => Value (YTexts [])
  (* 3461 order_by_opt: ORDER BY order_list *)
  | 675 => get as_texts 2 args (fun l => Value (YTexts l))
  (* 3467 order_list: order *)
  | 676 => get as_text 0 args (fun o => Value (YTexts [o]))
  (* 3471 order_list: order_list ',' order *)
  | 677 => get as_texts 0 args (fun l => get as_text 2 args (fun o => Value (YTexts (l ++ [o]))))
  (* 3477 order: expression asc_desc_opt *)
  | 678 => get as_expr 0 args (fun e => get as_str 1 args (fun d => Value (YText (order_text e d))))
  (* 3482 asc_desc_opt: (empty) *)
  | 679 => Value (YStr "asc")
  (* 3486 asc_desc_opt: ASC *)
  | 680 => Value (YStr "asc")
  (* 3490 asc_desc_opt: DESC *)
  | 681 => Value (YStr "desc")
  (* 3495 limit_opt: (empty) *)
  | 682 => Value (YText (lit ""))
  (* 3499 limit_opt: LIMIT expression *)
  | 683 => get as_expr 1 args (fun r => Value (YText (cat [lit " limit "; x_text r])))
  (* 3503 limit_opt: LIMIT expression ',' expression *)
  | 684 => get as_expr 1 args (fun o => get as_expr 3 args (fun r => Value (YText (cat [lit " limit "; x_text o; lit ", "; x_text r]))))
  (* 3507 limit_opt: LIMIT expression OFFSET expression *)
  | 685 => get as_expr 1 args (fun r => get as_expr 3 args (fun o => Value (YText (cat [lit " limit "; x_text o; lit ", "; x_text r]))))
  (* 3512 lock_opt: (empty) *)
  | 686 => Value (YStr "")
  (* 3516 lock_opt: FOR UPDATE *)
  | 687 => Value (YStr " for update")
  (* 3520 lock_opt: LOCK IN SHARE MODE *)
  | 688 => Value (YStr " lock in share mode")
  (* 3533 insert_data: VALUES tuple_list *)
  | 689 => get as_texts 1 args (fun r => Value (YInsert [] (cat [lit "values "; commas r])))
  (* 3537 insert_data: select_statement *)
  | 690 => get as_text 0 args (fun s => Value (YInsert [] s))
  (* 3541 insert_data: openb select_statement closeb *)
  | 691 => get as_text 1 args (fun s => Value (YInsert [] s))
  (* 3546 insert_data: openb ins_column_list closeb VALUES tuple_list *)
  | 692 => get as_strs 1 args (fun c => get as_texts 4 args (fun r => Value (YInsert c (cat [lit "values "; commas r]))))
  (* 3550 insert_data: openb ins_column_list closeb select_statement *)
  | 693 => get as_strs 1 args (fun c => get as_text 3 args (fun s => Value (YInsert c s)))
  (* 3554 insert_data: openb ins_column_list closeb openb select_statement closeb *)
  | 694 => get as_strs 1 args (fun c => get as_text 4 args (fun s => Value (YInsert c s)))
  (* 3561 ins_column_list: sql_id *)
  | 695 => get as_str 0 args (fun s => Value (YStrs [s]))
  (* 3565 ins_column_list: sql_id '.' sql_id *)
  | 696 => get as_str 2 args (fun s => Value (YStrs [s]))
  (* 3569 ins_column_list: ins_column_list ',' sql_id *)
  | 697 => get as_strs 0 args (fun l => get as_str 2 args (fun s => Value (YStrs (l ++ [s]))))
  (* 3573 ins_column_list: ins_column_list ',' sql_id '.' sql_id *)
  | 698 => get as_strs 0 args (fun l => get as_str 4 args (fun s => Value (YStrs (l ++ [s]))))
  (* 3578 on_dup_opt: (empty) *)
  | 699 => Value (YUpdates [])
  (* 3582 on_dup_opt: ON DUPLICATE KEY UPDATE update_list *)
  | 700 => get as_updates 4 args (fun u => Value (YUpdates u))
  (* 3588 tuple_list: tuple_or_empty *)
  | 701 => get as_exprs 0 args (fun l => Value (YTexts [parens (commas (map x_text l))]))
  (* 3592 tuple_list: tuple_list ',' tuple_or_empty *)
  | 702 => get as_texts 0 args (fun r => get as_exprs 2 args (fun l => Value (YTexts (r ++ [parens (commas (map x_text l))]))))
  (* 3598 tuple_or_empty: row_tuple *)
  | 703 => get as_exprs 0 args (fun l => Value (YExprs l))
  (* 3602 tuple_or_empty: openb closeb *)
  | 704 => Value (YExprs [])
  (* 3608 row_tuple: openb expression_list closeb *)
  | 705 => get as_exprs 1 args (fun l => Value (YExprs l))
  (* 3614 tuple_expression: row_tuple *)
  | 706 => get as_exprs 0 args (fun l => Value (YExpr (Some (tuple_expr l))))
  (* 3624 update_list: update_expression *)
  | 707 => get as_update 0 args (fun u => Value (YUpdates [u]))
  (* 3628 update_list: update_list ',' update_expression *)
  | 708 => get as_updates 0 args (fun l => get as_update 2 args (fun u => Value (YUpdates (l ++ [u]))))
  (* 3634 update_expression: column_name '=' expression *)
  | 709 => get as_col_name 0 args (fun c => get as_expr 2 args (fun e => Value (YUpdate (mkUpdate (fst c) (snd c) (x_text e)))))
  (* 3640 set_list: set_expression *)
  | 710 => Value (YNone)
  (* 3644 set_list: set_list ',' set_expression *)
  | 711 => Value (YNone)
  (* 3650 set_expression: reserved_sql_id '=' ON *)
  | 712 => Value (YNone)
  (* 3654 set_expression: reserved_sql_id '=' OFF *)
  | 713 => Value (YNone)
  (* 3658 set_expression: reserved_sql_id '=' expression *)
  | 714 => Value (YNone)
  (* 3662 set_expression: charset_or_character_set charset_value collate_opt *)
  | 715 => Value (YNone)
  (* 3669 charset_or_character_set: CHARACTER SET *)
  | 717 => Value (YStr "charset")
  (* 3676 charset_value: sql_id *)
  | 719 => Value (YNone)
  (* 3680 charset_value: STRING *)
  | 720 => Value (YNone)
  (* 3684 charset_value: DEFAULT *)
  | 721 => Value (YNone)
  (* 3693 exists_opt: (empty) *)
  | 724 => Value (YNone)
  (* 3695 exists_opt: IF EXISTS *)
  | 725 => Value (YNone)
  (* 3698 not_exists_opt: (empty) *)
  | 726 => Value (YNone)
  (* 3700 not_exists_opt: IF NOT EXISTS *)
  | 727 => Value (YNone)
  (* 3703 ignore_opt: (empty) *)
  | 728 => Value (YStr "")
  (* 3705 ignore_opt: IGNORE *)
  | 729 => Value (YStr "ignore ")
  (* 3709 non_add_drop_or_rename_operation: ALTER *)
  | 730 => Value (YNone)
  (* 3711 non_add_drop_or_rename_operation: AUTO_INCREMENT *)
  | 731 => Value (YNone)
  (* 3713 non_add_drop_or_rename_operation: CHARACTER *)
  | 732 => Value (YNone)
  (* 3715 non_add_drop_or_rename_operation: COMMENT_KEYWORD *)
  | 733 => Value (YNone)
  (* 3717 non_add_drop_or_rename_operation: DEFAULT *)
  | 734 => Value (YNone)
  (* 3719 non_add_drop_or_rename_operation: ORDER *)
  | 735 => Value (YNone)
  (* 3721 non_add_drop_or_rename_operation: CONVERT *)
  | 736 => Value (YNone)
  (* 3723 non_add_drop_or_rename_operation: PARTITION *)
  | 737 => Value (YNone)
  (* 3725 non_add_drop_or_rename_operation: UNUSED *)
  | 738 => Value (YNone)
  (* 3727 non_add_drop_or_rename_operation: ID *)
  | 739 => Value (YNone)
  (* 3730 to_opt: (empty) *)
  | 740 => Value (YNone)
  (* 3732 to_opt: TO *)
  | 741 => Value (YNone)
  (* 3734 to_opt: AS *)
  | 742 => Value (YNone)
  (* 3738 index_opt: INDEX *)
  | 743 => Value (YNone)
  (* 3740 index_opt: KEY *)
  | 744 => Value (YNone)
  (* 3744 sql_id: ID *)
  | 745 => get as_str 0 args (fun s => Value (YStr s))
  (* 3748 sql_id: non_reserved_keyword *)
  | 746 => get as_str 0 args (fun s => Value (YStr s))
  (* 3755 reserved_sql_id: reserved_keyword *)
  | 748 => get as_str 0 args (fun s => Value (YStr s))
  (* 3761 table_id: ID *)
  | 749 => get as_str 0 args (fun s => Value (YStr s))
  (* 3765 table_id: non_reserved_keyword *)
  | 750 => get as_str 0 args (fun s => Value (YStr s))
  (* 3772 reserved_table_id: reserved_keyword *)
  | 752 => get as_str 0 args (fun s => Value (YStr s))
  (* 4038 openb: '(' *)
  | 993 => Value (YNone)
  (* 4047 closeb: ')' *)
  | 994 => Value (YNone)
  (* 4052 force_eof: (empty) *)
  | 995 => Value (YNone)
  (* 4057 ddl_force_eof: (empty) *)
  | 996 => Value (YNone)
  (* 4061 ddl_force_eof: openb *)
  | 997 => Value (YNone)
  (* 4065 ddl_force_eof: reserved_sql_id *)
  | 998 => Value (YNone)
  | _ => first_value args
  end%positive.

(** parser.go 3405-7848: the switch. *)
Definition act (p : Z) (a : list yval) : reduced :=
  if (p <=? 59)%Z then statements (Z.to_pos p) a else
  if (p <=? 112)%Z then definitions (Z.to_pos p) a else
  if (p <=? 175)%Z then column_options (Z.to_pos p) a else
  if (p <=? 265)%Z then column_types (Z.to_pos p) a else
  if (p <=? 334)%Z then keys_and_options (Z.to_pos p) a else
  if (p <=? 443)%Z then other_statements (Z.to_pos p) a else
  if (p <=? 511)%Z then table_expressions (Z.to_pos p) a else
  if (p <=? 658)%Z then expressions (Z.to_pos p) a else
  values_and_names (Z.to_pos p) a.
