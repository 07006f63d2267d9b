(** Certificate for the tables of the SQL parser: what ProofGrammar checks them against.  Computed
    by a script from the grammar and the tables; nothing here is trusted. *)
From Coq Require Import String Ascii List ZArith.
From Verif Require Import Lexer ParserTables ParserValues.
Import ListNotations.
Local Open Scope Z_scope.

(** The nonterminals by number, from 1, and the kind of their values. *)
Inductive value_type :=
| TAny | TNone | TStr | TBool | TStrs | TText | TTexts | TExpr | TExprOpt | TExprs | TColName | TUpdate | TUpdates
| TInsert | TVal | TLens | TTable | TTables | TType | TColumn | TSeq | TIndexInfo | TIndexColumn | TIndexColumns
| TIndexOption | TIndexOptions | TIndexPartition | TIndex | TFk | TSpec | TStmt | TCommand.

Definition nonterminals : list (string * value_type) :=
  [
   ("command", TCommand); ("select_statement", TText); ("base_select", TText); ("union_lhs", TText); ("union_rhs",
   TText); ("stream_statement", TText); ("insert_statement", TText); ("update_statement", TText); ("delete_statement",
   TText); ("set_statement", TStmt); ("create_statement", TStmt); ("alter_statement", TStmt); ("rename_statement",
   TStmt); ("drop_statement", TStmt); ("truncate_statement", TStmt); ("create_table_prefix", TStmt);
   ("analyze_statement", TStmt); ("show_statement", TStmt); ("use_statement", TStmt); ("other_statement", TStmt);
   ("begin_statement", TStmt); ("commit_statement", TStmt); ("rollback_statement", TStmt); ("comment_opt", TStrs);
   ("comment_list", TStrs); ("union_op", TStr); ("insert_or_replace", TStr); ("distinct_opt", TStr);
   ("straight_join_opt", TStr); ("cache_opt", TStr); ("match_option", TStr); ("separator_opt", TStr);
   ("like_escape_opt", TExprOpt); ("select_expression_list", TTexts); ("select_expression_list_opt", TTexts);
   ("select_expression", TText); ("expression", TExpr); ("from_opt", TTexts); ("table_references", TTexts);
   ("table_reference", TText); ("table_factor", TText); ("join_table", TText); ("join_condition", TText);
   ("join_condition_opt", TText); ("on_expression_opt", TText); ("table_name_list", TTables); ("inner_join", TStr);
   ("outer_join", TStr); ("straight_join", TStr); ("natural_join", TStr); ("table_name", TTable); ("into_table_name",
   TTable); ("aliased_table_name", TText); ("index_hint_list", TStr); ("where_expression_opt", TExprOpt);
   ("condition", TExpr); ("boolean_value", TBool); ("compare", TStr); ("insert_data", TInsert); ("value", TExpr);
   ("value_expression", TExpr); ("num_val", TExpr); ("function_call_keyword", TExpr); ("function_call_nonkeyword",
   TExpr); ("function_call_generic", TExpr); ("function_call_conflict", TExpr); ("is_suffix", TStr); ("col_tuple",
   TExpr); ("expression_list", TExprs); ("tuple_list", TTexts); ("row_tuple", TExprs); ("tuple_or_empty", TExprs);
   ("tuple_expression", TExpr); ("subquery", TText); ("column_name", TColName); ("when_expression_list", TTexts);
   ("when_expression", TText); ("expression_opt", TExprOpt); ("else_expression_opt", TExprOpt); ("group_by_opt",
   TExprs); ("having_opt", TExprOpt); ("order_by_opt", TTexts); ("order_list", TTexts); ("order", TText);
   ("asc_desc_opt", TStr); ("limit_opt", TText); ("lock_opt", TStr); ("ins_column_list", TStrs); ("column_list",
   TStrs); ("include_columns_opt", TStrs); ("opt_partition_clause", TStrs); ("partition_list", TStrs); ("on_dup_opt",
   TUpdates); ("update_list", TUpdates); ("set_list", TNone); ("transaction_chars", TNone);
   ("charset_or_character_set", TStr); ("update_expression", TUpdate); ("set_expression", TNone); ("transaction_char",
   TNone); ("isolation_level", TNone); ("for_from", TStr); ("ignore_opt", TStr); ("default_opt", TStr);
   ("extended_opt", TStr); ("full_opt", TStr); ("from_database_opt", TStr); ("tables_or_processlist", TStr);
   ("like_or_where_opt", TNone); ("exists_opt", TNone); ("not_exists_opt", TNone);
   ("non_add_drop_or_rename_operation", TNone); ("to_opt", TNone); ("index_opt", TNone); ("reserved_keyword", TStr);
   ("non_reserved_keyword", TStr); ("sql_id", TStr); ("reserved_sql_id", TStr); ("col_alias", TStr); ("as_ci_opt",
   TStr); ("unique_opt", TBool); ("charset_value", TNone); ("table_id", TStr); ("reserved_table_id", TStr);
   ("table_alias", TStr); ("as_opt_id", TStr); ("as_opt", TNone); ("force_eof", TNone); ("ddl_force_eof", TNone);
   ("charset", TStr); ("set_session_or_global", TStr); ("show_session_or_global", TStr); ("convert_type", TText);
   ("simple_convert_type", TText); ("column_type", TType); ("bool_type", TType); ("int_type", TType); ("decimal_type",
   TType); ("numeric_type", TType); ("time_type", TType); ("char_type", TType); ("spatial_type", TType);
   ("length_opt", TVal); ("current_timestamp", TVal); ("charset_opt", TStr); ("collate_opt", TStr); ("unsigned_opt",
   TBool); ("zero_fill_opt", TBool); ("array_opt", TBool); ("time_zone_opt", TBool); ("float_length_opt", TLens);
   ("decimal_length_opt", TLens); ("enum_values", TStrs); ("column_definition", TColumn); ("column_definition_type",
   TType); ("index_definition", TIndex); ("primary_key_definition", TIndex); ("foreign_key_definition", TFk);
   ("foreign_key_without_options", TFk); ("reference_option", TStr); ("sql_id_opt", TStr); ("sql_id_list", TStrs);
   ("index_or_key", TStr); ("equal_opt", TStr); ("table_spec", TSpec); ("table_column_list", TSpec);
   ("table_option_list", TStr); ("table_option", TStr); ("table_opt_value", TStr); ("index_info", TIndexInfo);
   ("index_column", TIndexColumn); ("index_column_list", TIndexColumns); ("index_partition_opt", TIndexPartition);
   ("index_option_opt", TIndexOptions); ("index_option", TIndexOption); ("index_option_list", TIndexOptions);
   ("mssql_index_option_list", TIndexOptions); ("partition_definitions", TNone); ("partition_definition", TNone);
   ("partition_operation", TNone); ("vindex_param", TNone); ("vindex_param_list", TNone); ("vindex_params_opt",
   TNone); ("vindex_type", TStr); ("vindex_type_opt", TStr); ("alter_object_type", TStr); ("policy_as_opt", TStr);
   ("policy_for_opt", TStr); ("character_cast_opt", TAny); ("using_opt", TExprOpt); ("with_check_opt", TExprOpt);
   ("or_replace_opt", TNone); ("no_inherit_opt", TBool); ("identity_behavior", TStr); ("sequence_opt", TSeq);
   ("clustered_opt", TBool); ("not_for_replication_opt", TBool); ("default_definition", TVal); ("default_val", TVal);
   ("on_off", TVal); ("trigger_time", TStr); ("trigger_event", TStr); ("trigger_body", TTexts); ("trigger_statement",
   TText); ("any_command", TStmt); ("semicolon_opt", TNone); ("openb", TNone); ("closeb", TNone); ("from_or_using",
   TNone); ("alter_object_type_index", TStr); ("alter_object_type_rest", TStr); ("$$430", TNone);
   ("func_datetime_precision_opt", TNone) ]%string.

(** The symbols of the right sides: tokens by their internal number, nonterminals negative. *)
Definition rhs_list : list (list Z) :=
  [
   [-205;1]; [-1;-206]; []; [313]; [-2]; [-6]; [-7]; [-8]; [-9]; [-10]; [-11]; [-12]; [-13]; [-14]; [-15]; [-17];
   [-18]; [-19]; [-21]; [-22]; [-23]; [-20]; [-3;-82;-86;-87]; [-4;-26;-5;-82;-86;-87]; [6;-24;-30;34;-62;-102;-51];
   [7;-24;-36;11;-51]; [6;-24;-30;-28;-29;-34;-38;-55;-80;-81]; [-2]; [-207;-2;-208]; [-3]; [-207;-2;-208];
   [-27;-24;-103;-52;-91;-59;-93]; [-27;-24;-103;-52;-91;29;-94;-93]; [8]; [279]; [9;-24;-39;29;-94;-55;-82;-86];
   [10;-24;11;-51;-91;-55;-82;-86]; [10;-24;11;-46;51;-39;-55]; [10;-24;-46;-209;-39;-55]; [11]; [51]; [-51];
   [-46;53;-51]; []; [145;-207;-92;-208]; [29;-24;-95]; [29;-24;-131;-95]; [29;-24;-131;177;-96]; [29;-24;177;-96];
   [-100]; [-96;53;-100]; [261;262;-101]; [263;264]; [263;265]; [266;263]; [263;267]; [263;268]; [269]; [260]; [259];
   [-16;-165]; [112;-121;-196;120;-117;50;-51;52;-172;54;-90;-55;-174;-173];
   [112;-121;-196;120;-117;51;-117;50;-51;52;-172;54;-174];
   [112;-121;-196;120;-117;50;-51;51;-117;52;-172;54;-55;-174]; [112;-192;121;-51;22;-2]; [112;151;-117;-185;-183];
   [112;271;-111;55;-129]; [112;118;-111;55;-129]; [112;133;-117;50;-51;-187;-188;122;-162;-190;-191];
   [112;150;-117;-201;-202;50;-51;19;173;174;-204]; [112;150;-117;50;-51;-201;-202;22;-203]; [171]; [172]; [8]; [9];
   [10]; [-204]; [-203;-204]; [-7]; [-9]; [-8]; []; [22;159]; [22;160]; []; [19;20]; [19;6]; [19;8]; [19;9]; [19;10];
   []; [51;-37]; []; [291;312;-37]; []; [134]; []; [51;-184]; [55]; []; [291;-182]; [-181]; [-182;53;-181];
   [-118;80;-169]; []; [70;279]; [112;119;-111;-51]; [52;-166;54;-167]; [-154]; [-166;53;-154]; [-166;53;-156];
   [-166;53;-158]; [-166;53;-157]; [55;-155]; [-139;-147;-148]; [-136]; [-141]; [-140]; [-142]; [-135;-149];
   [-155;66]; [-155;72;66]; [-155;-198]; [-155;127;-117;-198]; [-155;50;9;-144]; [-155;241]; [-155;247];
   [-155;125;135]; [-155;135]; [-155;134;135]; [-155;134]; [-155;312;-197;-207;-37;-208;-193];
   [-155;127;-117;312;-197;-207;-37;-208]; [-155;64;57]; [-155;128;-123]; [-155;128;-123;52;-89;54];
   [-155;297;-194;22;299]; [-155;297;-194;22;299;52;-195;54]; [-155;299;52;58;53;58;54]; [-155;72;19;309]; [28;-199];
   [28;52;-199;54]; [28;52;52;-199;54;54]; [57;-189]; [58]; [59]; [66]; [-144]; [65]; [-57]; [237;-207;-208]; [298];
   [16;28]; []; [-195;176;291;58]; [-195;176;58]; [-195;301;16;58]; [-195;301;58]; [-195;302;58]; [-195;144;58];
   [-195;303;58]; [-195;157;302]; [-195;157;144]; [-195;157;304]; [-195;304]; [-195;305;16;306];
   [-195;305;16;-123;109;-118]; [270;-143]; [270;52;54]; [273;-143]; [273;52;54]; [272]; [238;52;54]; []; [157;286];
   []; [311;210;208]; [311;200;-150]; [311;239]; [311;216]; [-137;-143]; [-138]; [180]; [181]; [182]; [183]; [184];
   [185]; [186]; [187]; [188]; [189]; [191;-151]; [192;193;-151]; [192;-151]; [194;-151]; [195;-152]; [196;-152];
   [198]; [197]; [139]; [199;-143;-150]; [200;-143;-150]; [201;-143]; [204]; [203;-143]; [205]; [202]; [209]; [289];
   [206;-143;-145;-146]; [210;-143;-145;-146]; [207;-143;-145;-146]; [212;-143;-145;-146]; [213;-143;-145;-146];
   [214]; [210;208;-143;-145;-146]; [106;-143]; [211;-143]; [216;-145;-146]; [217;-145;-146]; [218;-145;-146];
   [219;-145;-146]; [220;-145;-146]; [221]; [222]; [223]; [224]; [225]; [226]; [215]; [227;52;-153;54;-145;-146];
   [29;52;-153;54;-145;-146]; [228]; [229]; [230]; [231]; [232]; [233]; [234]; [235]; [57]; [-153;53;57]; [];
   [52;58;54]; []; [52;58;53;58;54]; []; [52;58;54]; [52;58;53;58;54]; []; [291;199;246]; [292;199;246]; []; [244];
   []; [245]; []; [314;315]; [236]; []; [210;29;55]; [210;29;106]; []; [106]; [105;55]; [-170;52;-172;54;-174;-173];
   []; [-176]; [291;52;-177;54]; [-175]; [-176;-175]; [-175]; [-177;53;-175]; [51;55]; [132;-164;58]; [64;57];
   [291;293;-117]; [164;80;-200]; [165;80;58]; [166;80;-200]; [167;80;-200]; [168;80;-200]; [169;80;-200];
   [170;80;-200]; []; [80]; [50]; [69]; []; [50;-117]; [50;-117;-207;-117;-208]; [125;135]; [129;-163;55];
   [130;-163;55]; [130;55]; [134;-163;55]; [134;55]; [-163;55;-196]; [-163;55;134;-196]; [120]; [135]; [-171];
   [-172;53;-171]; [-117;-143;-85]; [135;-143]; [-159;-197]; [-159;50;10;-160;-197]; [-159;50;9;-160;-197];
   [-159;50;10;-160;50;9;-160;-197]; [-159;50;9;-160;50;10;-160;-197];
   [127;-161;131;135;-161;52;-162;54;128;-51;52;-162;54]; [155]; [156]; [29;66]; [157;158];
   [127;-117;125;135;-196;52;-172;54;-174;-173]; []; [307]; [308]; []; [72;19;309]; []; [-117]; [-117];
   [-162;53;-117]; []; [-168]; [-167;53;-168]; [-169]; [-168;-169]; [-168;80;-169]; [-118]; [57]; [58];
   [113;-103;119;-51;-112;-128]; [113;-103;119;-51;117;-121;-210;-117;52;-172;54];
   [113;-103;119;265;-51;117;127;-117;125;135;52;-172;54]; [113;-103;119;265;-51;117;-158];
   [113;-103;119;-51;117;-211;-128]; [113;-103;119;-51;114;-186;-128];
   [113;-103;119;-51;117;151;-117;52;-89;54;-185;-183]; [113;-103;119;-51;114;151;-117];
   [113;-103;119;-51;115;-113;-51]; [113;-103;119;-51;115;-114;-128]; [113;121;-51;-129]; [113;-103;119;-51;-180];
   [126]; [127]; [131]; [130]; [55]; [120]; [135]; [125]; [129]; [145]; [134]; [120]; [135]; [126]; [131]; [130];
   [55]; [125]; [129]; [145]; [146;145;-117;26;-207;-178;-208]; [-179]; [-178;53;-179];
   [145;-117;32;147;148;-207;-61;-208]; [145;-117;32;147;148;-207;144;-208]; [115;119;-51;122;-51];
   [114;119;-110;-51]; [114;120;55;50;-51;-129]; [114;121;-110;-51;-129]; [114;271;-110;55]; [114;118;-110;55];
   [143;119;-51]; [143;-51]; [116;119;-51]; [136;106;55;-129]; [136;210;29;-129]; [136;112;271;-129];
   [136;112;55;-129]; [136;112;149;-129]; [136;112;119;-129]; [136;112;150;-129]; [136;112;121;-129]; [136;248;-129];
   [136;120;-129]; [136;31;-129]; [136;149;-129]; [136;-132;153;-129]; [136;119;-129]; [136;-105;-106;-108;-107;-109];
   [136;-132;154;-129]; [136;152]; [136;152;50;-51]; [136;250]; [136;251]; [136;252]; [136;253]; [136;55;-129]; [249];
   [256]; []; [254]; []; [255]; []; [11;-123]; [90;-123]; []; [88;57]; [12;-37]; []; [260]; [259]; [48;-123]; [48];
   [175]; [176;177]; [178]; [179]; [25;-128]; [137;-128]; [138;-128]; [141;-128]; [142;-128]; []; [-212;-25]; [];
   [-25;63]; [5]; [5;20]; [5;21]; []; [38]; [39]; []; [21]; []; [41]; []; [-34]; [-36]; [-34;53;-36]; [97];
   [-37;-120]; [-123;109;97]; [-123;109;-124;109;97]; []; [-119]; [22;-119]; [-117]; [57]; []; [11;-39]; [-40];
   [-39;53;-40]; [-41]; [-42]; [-53]; [-74;-127;-123]; [-207;-39;-208]; [-51;-126;-54];
   [-51;145;-207;-92;-208;-126;-54]; [-117]; [135]; [-89;53;-117]; [-117]; [-92;53;-117]; [-40;-47;-41;-44];
   [-40;-49;-41;-45]; [-40;-48;-40;-43]; [-40;-50;-41]; [50;-37]; [51;52;-89;54]; []; [-43]; []; [50;-37]; []; [22];
   []; [-125]; [22;-125]; [-123]; [57]; [40]; [44;40]; [46;40]; [41]; [42;40]; [42;45;40]; [43;40]; [43;45;40];
   [47;40]; [47;-48]; [26;-51]; [-51]; [-123]; [-123;109;-124]; []; [48;120;-207;-89;-208]; [123;120;-207;-89;-208];
   [49;120;-207;-89;-208]; []; [12;-37]; []; [310;52;-89;54]; [-56]; [-37;71;-37]; [-37;70;-37]; [72;-37];
   [-37;87;-67]; [-61]; [28;-104]; []; [-207;55;-208]; [67]; [68]; [-61;-58;-61]; [-61;90;-68]; [-61;72;90;-68];
   [-61;88;-61;-33]; [-61;72;88;-61;-33]; [-61;89;-61]; [-61;72;89;-61]; [-61;74;-61;71;-61]; [-61;72;74;-61;71;-61];
   [23;-74]; [66]; [72;66]; [67]; [72;67]; [68]; [72;68]; [80]; [81]; [82]; [83]; [84]; [85]; [86]; []; [140;-61];
   [-71]; [-74]; [62]; [-207;-2;-208]; [-37]; [-69;53;-37]; [-60]; [-57]; [-75]; [-73]; [-74]; [-61;92;-61];
   [-61;91;-61]; [-61;102;-61]; [-61;95;-61]; [-61;96;-61]; [-61;97;-61]; [-61;98;-61]; [-61;99;-61]; [-61;100;-61];
   [-61;101;-61]; [-61;93;-61]; [-61;94;-61]; [-75;110;-60]; [-75;111;-60]; [-61;105;-130]; [106;-61]; [107;-61];
   [95;-61]; [96;-61]; [103;-61]; [73;-61]; [108;-61;-117]; [-61;311;-134]; [-65]; [-63]; [-64]; [-66];
   [-117;-207;-35;-208]; [-117;-207;21;-34;-208]; [-123;109;-118;-207;-35;-208]; [42;-207;-34;-208];
   [43;-207;-34;-208]; [280;-207;-37;53;-133;-208]; [281;-207;-37;22;-133;-208]; [280;-207;-37;51;-130;-208];
   [282;-207;-75;53;-61;-208]; [282;-207;-75;53;-61;53;-61;-208]; [282;-207;-75;11;-61;19;-61;-208];
   [283;-207;-75;53;-61;-208]; [283;-207;-75;53;-61;53;-61;-208]; [283;-207;-75;11;-61;19;-61;-208];
   [287;-207;-34;-208;288;-207;-61;-31;-208]; [284;-207;-28;-34;-82;-32;-208]; [75;-78;-76;-79;79];
   [32;-207;-75;-208]; [270;-213]; [278;-213]; [277;-213]; [276;-213]; [274;-213]; [275;-213]; [272;-213]; [273;-213];
   [311;-134]; []; [-207;-208]; [124;-207;-34;-208]; [271;-207;-35;-208]; [101;-207;-34;-208]; [279;-207;-34;-208];
   []; [90;289;37]; [90;47;290;37]; [90;47;290;37;291;294;295]; [291;294;295]; [55]; [57]; [106;-143];
   [206;-143;-145]; [206;-143;55]; [139]; [201;-143]; [195;-152]; [225]; [226]; [212;-143]; [243]; [243;186];
   [199;-143]; [244]; [244;186]; [106]; [210;208]; [139]; [201]; [-137]; [-136]; [216]; []; [-37]; []; [285;57];
   [-77]; [-76;-77]; [76;-37;77;-37]; []; [78;-37]; [-117]; [-123;109;-118]; [-123;109;-124;109;-118]; [57]; [56];
   [65]; [58]; [59]; [60]; [61]; [66]; [-117]; [58;32]; [61;32]; []; [13;16;-69]; []; [14;-37]; []; [15;16;-83];
   [-84]; [-83;53;-84]; [-37;-85]; []; [24]; [25]; []; [17;-37]; [17;-37;53;-37]; [17;-37;18;-37]; []; [19;9];
   [30;90;36;37]; [32;-70]; [-2]; [-207;-2;-208]; [-207;-88;-208;32;-70]; [-207;-88;-208;-2];
   [-207;-88;-208;-207;-2;-208]; [-117]; [-117;109;-117]; [-88;53;-117]; [-88;53;-117;109;-117]; [];
   [50;27;135;9;-94]; [-72]; [-70;53;-72]; [-71]; [-207;-208]; [-207;-69;-208]; [-71]; [-98]; [-94;53;-98];
   [-75;80;-37]; [-99]; [-95;53;-99]; [-118;80;50]; [-118;80;69]; [-118;80;-37]; [-97;-122;-146]; [258]; [210;29];
   [257]; [-117]; [57]; [28]; [19]; [11]; []; [124;23]; []; [124;72;23]; []; [123]; [113]; [241]; [210]; [64]; [28];
   [15]; [280]; [145]; [296]; [55]; []; [122]; [22]; [120]; [135]; [55]; [-116]; [-117]; [-115]; [55]; [-116]; [-123];
   [-115]; [117]; [172]; [298]; [71]; [22]; [24]; [241]; [247]; [171]; [74]; [106]; [16]; [75]; [307]; [308]; [105];
   [280]; [112]; [46]; [272]; [273]; [270]; [282]; [283]; [271]; [248]; [28]; [10]; [25]; [137]; [21]; [99]; [114];
   [173]; [78]; [79]; [140]; [23]; [138]; [68]; [19]; [49]; [131]; [11]; [297]; [13]; [14]; [299]; [124]; [123]; [90];
   [310]; [120]; [44]; [8]; [108]; [26]; [87]; [40]; [135]; [42]; [88]; [17]; [274]; [275]; [30]; [287]; [144]; [101];
   [47]; [34]; [72]; [66]; [50]; [265]; [70]; [15]; [45]; [133]; [89]; [115]; [279]; [43]; [174]; [118]; [6]; [285];
   [29]; [136]; [41]; [119]; [249]; [77]; [122]; [67]; [5]; [134]; [9]; [48]; [51]; [276]; [277]; [278]; [32]; [76];
   [12]; [69]; [158]; [288]; [20]; [175]; [188]; [189]; [180]; [221]; [209]; [289]; [156]; [206]; [210]; [258]; [312];
   [64]; [178]; [267]; [127]; [162]; [139]; [201]; [204]; [203]; [195]; [192]; [27]; [227]; [295]; [194]; [130];
   [228]; [232]; [238]; [259]; [286]; [185]; [186]; [261]; [225]; [31]; [132]; [290]; [33]; [147]; [262]; [230];
   [224]; [219]; [223]; [184]; [218]; [37]; [198]; [234]; [233]; [235]; [257]; [212]; [157]; [237]; [214]; [196];
   [213]; [18]; [142]; [145]; [229]; [231]; [193]; [159]; [125]; [149]; [294]; [263]; [191]; [146]; [160]; [141];
   [266]; [309]; [155]; [179]; [260]; [187]; [269]; [36]; [243]; [205]; [182]; [197]; [183]; [129]; [176]; [153];
   [216]; [148]; [199]; [200]; [222]; [181]; [217]; [177]; [150]; [143]; [268]; [244]; [296]; [215]; [211]; [207];
   [208]; [154]; [121]; [151]; [152]; [250]; [251]; [252]; [253]; [291]; [292]; [264]; [202]; [245]; [246]; [164];
   [165]; [166]; [167]; [168]; [169]; [170]; [52]; [54]; []; []; [-207]; [-118] ].

(** For each state, its items with the point after the first symbol or later: production, position. *)
Definition kernel_list : list (list (Z * Z)) :=
  [
   []; [(0,1)]; [(1,1)]; [(4,1);(27,1)]; [(5,1)]; [(6,1)]; [(7,1)]; [(8,1)]; [(9,1)]; [(10,1)]; [(11,1)]; [(12,1)];
   [(13,1)]; [(14,1)]; [(15,1)]; [(16,1)]; [(17,1)]; [(18,1)]; [(19,1)]; [(20,1)]; [(21,1)]; [(22,1)]; [(23,1)];
   [(24,1);(26,1)]; [(25,1)]; [(31,1);(32,1)]; [(35,1)]; [(36,1);(37,1);(38,1)]; [(45,1);(46,1);(47,1);(48,1)];
   [(60,1)]; [(61,1);(62,1);(63,1);(64,1);(65,1);(66,1);(67,1);(68,1);(69,1);(70,1);(106,1)];
   [(335,1);(336,1);(337,1);(338,1);(339,1);(340,1);(341,1);(342,1);(343,1);(344,1);(345,1);(346,1)]; [(372,1)];
   [(373,1);(374,1);(375,1);(376,1);(377,1)]; [(378,1);(379,1)]; [(380,1)];
   [(381,1);(382,1);(383,1);(384,1);(385,1);(386,1);(387,1);(388,1);(389,1);(390,1);(391,1);(392,1);(393,1);(394,1);(395,1);(396,1);(397,1);(398,1);(399,1);(400,1);(401,1);(402,1);(403,1)];
   [(419,1);(420,1)]; [(421,1)]; [(422,1)]; [(423,1)]; [(424,1)]; [(425,1)]; [(426,1)]; [(427,1)]; [(428,1)];
   [(429,1)]; [(28,1)]; [(33,1)]; [(34,1)]; [(993,1)]; [(1,2)]; [(3,1)]; [(22,2)]; [(675,1)]; [(23,2)];
   [(434,1);(435,1);(436,1)]; [(24,2);(26,2)]; [(431,1)]; [(25,2)]; [(31,2);(32,2)]; [(35,2)]; [(36,2);(37,2);(38,2)];
   [(45,2);(46,2);(47,2);(48,2)]; [(60,2)]; [(107,1)]; [(61,2);(62,2);(63,2)]; [(64,2)]; [(65,2)]; [(66,2)]; [(67,2)];
   [(68,2)]; [(69,2);(70,2)]; [(106,2)]; [(95,1)]; [(105,1)];
   [(335,2);(336,2);(337,2);(338,2);(339,2);(340,2);(341,2);(342,2);(343,2);(344,2);(346,2)]; [(345,2)]; [(729,1)];
   [(372,2)]; [(373,2)]; [(374,2)]; [(375,2)]; [(376,2)]; [(377,2)]; [(378,2)]; [(379,2)]; [(502,1);(503,1)];
   [(749,1)]; [(750,1)]; [(860,1)]; [(861,1)]; [(862,1)]; [(863,1)]; [(864,1)]; [(865,1)]; [(866,1)]; [(867,1)];
   [(868,1)]; [(869,1)]; [(870,1)]; [(871,1)]; [(872,1)]; [(873,1)]; [(874,1)]; [(875,1)]; [(876,1)]; [(877,1)];
   [(878,1)]; [(879,1)]; [(880,1)]; [(881,1)]; [(882,1)]; [(883,1)]; [(884,1)]; [(885,1)]; [(886,1)]; [(887,1)];
   [(888,1)]; [(889,1)]; [(890,1)]; [(891,1)]; [(892,1)]; [(893,1)]; [(894,1)]; [(895,1)]; [(896,1)]; [(897,1)];
   [(898,1)]; [(899,1)]; [(900,1)]; [(901,1)]; [(902,1)]; [(903,1)]; [(904,1)]; [(905,1)]; [(906,1)]; [(907,1)];
   [(908,1)]; [(909,1)]; [(910,1)]; [(911,1)]; [(912,1)]; [(913,1)]; [(914,1)]; [(915,1)]; [(916,1)]; [(917,1)];
   [(918,1)]; [(919,1)]; [(920,1)]; [(921,1)]; [(922,1)]; [(923,1)]; [(924,1)]; [(925,1)]; [(926,1)]; [(927,1)];
   [(928,1)]; [(929,1)]; [(930,1)]; [(931,1)]; [(932,1)]; [(933,1)]; [(934,1)]; [(935,1)]; [(936,1)]; [(937,1)];
   [(938,1)]; [(939,1)]; [(940,1)]; [(941,1)]; [(942,1)]; [(943,1)]; [(944,1)]; [(945,1)]; [(946,1)]; [(947,1)];
   [(948,1)]; [(949,1)]; [(950,1)]; [(951,1)]; [(952,1)]; [(953,1)]; [(954,1)]; [(955,1)]; [(956,1)]; [(957,1)];
   [(958,1)]; [(959,1)]; [(960,1)]; [(961,1)]; [(962,1)]; [(963,1)]; [(964,1)]; [(965,1)]; [(966,1)]; [(967,1)];
   [(968,1)]; [(969,1)]; [(970,1)]; [(971,1)]; [(972,1)]; [(973,1)]; [(974,1)]; [(975,1)]; [(976,1)]; [(977,1)];
   [(978,1)]; [(979,1)]; [(980,1)]; [(981,1)]; [(982,1)]; [(983,1)]; [(984,1)]; [(985,1)]; [(986,1)]; [(987,1)];
   [(988,1)]; [(989,1)]; [(990,1)]; [(991,1)]; [(992,1)]; [(380,2)]; [(381,2)]; [(382,2)];
   [(383,2);(384,2);(385,2);(386,2);(387,2);(388,2)]; [(389,2)]; [(390,2)]; [(391,2)]; [(392,2)]; [(393,2);(396,2)];
   [(394,2)]; [(395,2)]; [(397,2);(398,2)]; [(399,2)]; [(400,2)]; [(401,2)]; [(402,2)]; [(403,2)]; [(417,1)];
   [(418,1)]; [(407,1)]; [(419,2)]; [(422,2)]; [(425,2)]; [(426,2)]; [(427,2)]; [(428,2)]; [(429,2)]; [(27,1);(28,2)];
   [(22,3)]; [(683,1);(684,1);(685,1)]; [(675,2)]; [(23,3)]; [(29,1)]; [(30,1)]; [(26,1)]; [(435,2)]; [(436,2)];
   [(24,3);(26,3)]; [(438,1)]; [(439,1)]; [(431,2);(433,1)]; [(25,3)]; [(448,1)]; [(449,1);(513,1);(514,1);(516,1)];
   [(450,1);(451,1);(588,1);(657,1);(658,1)]; [(512,1)]; [(515,1)];
   [(517,1);(523,1);(524,1);(525,1);(526,1);(527,1);(528,1);(529,1);(530,1);(531,1);(559,1);(560,1);(561,1);(562,1);(563,1);(564,1);(565,1);(566,1);(567,1);(568,1);(569,1);(570,1);(573,1);(581,1)];
   [(518,1)]; [(745,1);(749,1)]; [(746,1);(750,1)]; [(532,1)]; [(554,1)]; [(555,1)]; [(556,1);(571,1);(572,1)];
   [(557,1)]; [(558,1)]; [(574,1)]; [(575,1)]; [(576,1)]; [(577,1)]; [(578,1)]; [(579,1)]; [(580,1)]; [(582,1)];
   [(583,1)]; [(584,1)]; [(585,1)]; [(659,1)]; [(660,1)]; [(661,1)]; [(662,1)]; [(663,1)]; [(664,1)]; [(665,1)];
   [(666,1)]; [(521,1)]; [(522,1)]; [(586,1);(587,1);(656,1)]; [(706,1)]; [(551,1);(705,1)]; [(589,1)]; [(590,1)];
   [(591,1);(593,1)]; [(592,1)]; [(594,1);(595,1);(596,1)]; [(597,1);(598,1);(599,1)]; [(600,1)]; [(601,1)];
   [(602,1)]; [(603,1)]; [(604,1)]; [(605,1)]; [(606,1)]; [(607,1)]; [(608,1)]; [(609,1)]; [(610,1)]; [(611,1)];
   [(612,1)]; [(615,1)]; [(616,1)]; [(617,1)]; [(618,1)]; [(31,3);(32,3)]; [(35,3);(460,1)];
   [(459,1);(473,1);(474,1);(475,1);(476,1)]; [(461,1)]; [(462,1)]; [(463,1)]; [(464,1)]; [(465,1);(551,1)];
   [(466,1);(467,1)]; [(36,3);(37,3)]; [(38,3);(42,1)]; [(41,1)]; [(45,3);(711,1)]; [(46,3);(47,3)]; [(48,3);(962,1)];
   [(710,1)]; [(58,1);(943,1)]; [(59,1);(894,1)]; [(712,1);(713,1);(714,1)]; [(715,1)]; [(747,1)]; [(748,1)];
   [(716,1);(873,1)]; [(717,1);(872,1)]; [(718,1);(917,1)]; [(745,1)]; [(746,1)]; [(753,1)]; [(754,1)]; [(755,1)];
   [(756,1)]; [(757,1)]; [(758,1)]; [(759,1)]; [(760,1)]; [(761,1)]; [(762,1)]; [(763,1)]; [(764,1)]; [(765,1)];
   [(766,1)]; [(767,1)]; [(768,1)]; [(769,1)]; [(770,1)]; [(771,1)]; [(772,1)]; [(773,1)]; [(774,1)]; [(775,1)];
   [(776,1)]; [(777,1)]; [(778,1)]; [(779,1)]; [(780,1)]; [(781,1)]; [(782,1)]; [(783,1)]; [(784,1)]; [(785,1)];
   [(786,1)]; [(787,1)]; [(788,1)]; [(789,1)]; [(790,1)]; [(791,1)]; [(792,1)]; [(793,1)]; [(794,1)]; [(795,1)];
   [(796,1)]; [(797,1)]; [(798,1)]; [(799,1)]; [(800,1)]; [(801,1)]; [(802,1)]; [(803,1)]; [(804,1)]; [(805,1)];
   [(806,1)]; [(807,1)]; [(808,1)]; [(809,1)]; [(810,1)]; [(811,1)]; [(812,1)]; [(813,1)]; [(814,1)]; [(815,1)];
   [(816,1)]; [(817,1)]; [(818,1)]; [(819,1)]; [(820,1)]; [(821,1)]; [(822,1)]; [(823,1)]; [(824,1)]; [(825,1)];
   [(826,1)]; [(827,1)]; [(828,1)]; [(829,1)]; [(830,1)]; [(831,1)]; [(832,1)]; [(833,1)]; [(834,1)]; [(835,1)];
   [(836,1)]; [(837,1)]; [(838,1)]; [(839,1)]; [(840,1)]; [(841,1)]; [(842,1)]; [(843,1)]; [(844,1)]; [(845,1)];
   [(846,1)]; [(847,1)]; [(848,1)]; [(849,1)]; [(850,1)]; [(851,1)]; [(852,1)]; [(853,1)]; [(854,1)]; [(855,1)];
   [(856,1)]; [(857,1)]; [(858,1)]; [(859,1)]; [(107,2);(109,1);(110,1);(111,1);(112,1)]; [(108,1)]; [(113,1)];
   [(61,3);(62,3);(63,3)]; [(318,1)]; [(319,1)]; [(64,3)]; [(65,3)]; [(66,3)]; [(727,1)]; [(67,3)]; [(68,3)];
   [(69,3);(70,3)]; [(106,3)]; [(105,2)];
   [(335,3);(336,3);(337,3);(338,3);(339,3);(340,3);(341,3);(342,3);(343,3);(344,3);(346,3)]; [(345,3)]; [(372,3)];
   [(373,3)]; [(725,1)]; [(374,3)]; [(375,3)]; [(376,3)]; [(377,3)]; [(378,3)]; [(503,2)]; [(380,3)]; [(381,3)];
   [(382,3)]; [(383,3)]; [(384,3)]; [(385,3)]; [(386,3)]; [(387,3)]; [(388,3)]; [(389,3)]; [(997,1)]; [(998,1)];
   [(390,3)]; [(391,3)]; [(392,3)]; [(393,3)]; [(396,3)]; [(394,3)]; [(395,3)]; [(409,1)]; [(398,3)]; [(403,3)];
   [(28,3)]; [(994,1)]; [(22,4)]; [(687,1)]; [(688,1)]; [(513,1);(514,1);(516,1);(683,2);(684,2);(685,2)];
   [(588,1);(657,1);(658,1)]; [(675,3);(677,1)]; [(676,1)]; [(513,1);(514,1);(516,1);(678,1)]; [(23,4)];
   [(27,1);(30,2)]; [(26,2)]; [(24,4)]; [(26,4)]; [(441,1)]; [(433,2)]; [(25,4)]; [(449,2)]; [(513,2)]; [(514,2)];
   [(516,2)]; [(453,1)]; [(454,1)]; [(455,1)]; [(456,1)]; [(450,2);(451,2);(588,2);(657,2);(658,2)];
   [(513,1);(514,1);(515,2);(516,1)]; [(523,2)]; [(524,2)]; [(525,2);(527,2);(529,2);(531,2)]; [(526,2)]; [(528,2)];
   [(530,2)]; [(559,2)]; [(560,2)]; [(561,2)]; [(562,2)]; [(563,2)]; [(564,2)]; [(565,2)]; [(566,2)]; [(567,2)];
   [(568,2)]; [(569,2)]; [(570,2)]; [(573,2)]; [(581,2)]; [(539,1)]; [(540,1)]; [(541,1)]; [(542,1)]; [(543,1)];
   [(544,1)]; [(545,1)]; [(518,2)]; [(520,1)]; [(532,2)]; [(551,1)]; [(571,2)]; [(572,2)];
   [(559,1);(560,1);(561,1);(562,1);(563,1);(564,1);(565,1);(566,1);(567,1);(568,1);(569,1);(570,1);(573,1);(574,2);(581,1)];
   [(559,1);(560,1);(561,1);(562,1);(563,1);(564,1);(565,1);(566,1);(567,1);(568,1);(569,1);(570,1);(573,1);(575,2);(581,1)];
   [(559,1);(560,1);(561,1);(562,1);(563,1);(564,1);(565,1);(566,1);(567,1);(568,1);(569,1);(570,1);(573,1);(576,2);(581,1)];
   [(559,1);(560,1);(561,1);(562,1);(563,1);(564,1);(565,1);(566,1);(567,1);(568,1);(569,1);(570,1);(573,1);(577,2);(581,1)];
   [(559,1);(560,1);(561,1);(562,1);(563,1);(564,1);(565,1);(566,1);(567,1);(568,1);(569,1);(570,1);(573,1);(578,2);(581,1)];
   [(559,1);(560,1);(561,1);(562,1);(563,1);(564,1);(565,1);(566,1);(567,1);(568,1);(569,1);(570,1);(573,1);(579,2);(581,1)];
   [(559,1);(560,1);(561,1);(562,1);(563,1);(564,1);(565,1);(566,1);(567,1);(568,1);(569,1);(570,1);(573,1);(580,2);(581,1)];
   [(586,2);(587,2)]; [(27,1);(551,2)]; [(553,1);(705,2)]; [(513,1);(514,1);(516,1);(552,1)];
   [(28,1);(551,1);(705,1)]; [(589,2)]; [(590,2)]; [(591,2);(593,2)]; [(592,2)]; [(594,2);(595,2);(596,2)];
   [(597,2);(598,2);(599,2)]; [(600,2)]; [(601,2)]; [(602,2)]; [(513,1);(514,1);(516,1);(648,1)]; [(603,2)];
   [(604,2)]; [(614,1)]; [(605,2)]; [(606,2)]; [(607,2)]; [(608,2)]; [(609,2)]; [(610,2)]; [(611,2)]; [(612,2)];
   [(640,1)]; [(641,1)]; [(642,1)]; [(643,1)]; [(644,1)]; [(645,1)]; [(646,1)]; [(182,1)]; [(183,1)]; [(184,1)];
   [(185,1)]; [(186,1)]; [(187,1)]; [(188,1)]; [(189,1)]; [(190,1)]; [(191,1)]; [(208,1)]; [(209,1)]; [(615,2)];
   [(616,2)]; [(617,2)]; [(618,2)]; [(31,4);(32,4)]; [(500,1)]; [(501,1)]; [(35,4)]; [(460,2)]; [(473,2)]; [(474,2)];
   [(475,2)]; [(476,2)]; [(490,1)]; [(491,1)]; [(492,1)]; [(493,1)]; [(494,1);(495,1)]; [(496,1);(497,1)];
   [(498,1);(499,1)]; [(464,2)]; [(484,1)]; [(460,1);(465,2)]; [(28,1);(465,1);(551,1)]; [(466,2)]; [(467,2);(926,1)];
   [(486,1)]; [(487,1)]; [(488,1)]; [(489,1)]; [(36,4);(41,1)]; [(37,4);(42,1)]; [(38,4)]; [(42,2)]; [(39,1)];
   [(40,1)]; [(711,2)]; [(46,4);(711,1)]; [(47,4);(962,1)]; [(48,4);(50,1)]; [(49,1)]; [(51,1)]; [(52,1);(53,1)];
   [(712,2);(713,2);(714,2)]; [(715,2)]; [(719,1)]; [(720,1)]; [(721,1)]; [(717,2)]; [(107,3)];
   [(109,2);(110,2);(111,2);(112,2)];
   [(113,2);(120,1);(121,1);(122,1);(123,1);(124,1);(125,1);(126,1);(127,1);(128,1);(129,1);(130,1);(131,1);(132,1);(133,1);(134,1);(135,1);(136,1);(137,1);(138,1);(139,1)];
   [(119,1)]; [(114,1)]; [(115,1)]; [(116,1)]; [(117,1)]; [(118,1)]; [(180,1)]; [(181,1)]; [(210,1)];
   [(211,1);(216,1)]; [(212,1)]; [(213,1)]; [(214,1)]; [(215,1)]; [(217,1)]; [(218,1)]; [(219,1)]; [(220,1)];
   [(221,1)]; [(222,1)]; [(223,1)]; [(224,1)]; [(225,1)]; [(226,1)]; [(227,1)]; [(228,1)]; [(229,1)]; [(230,1)];
   [(231,1)]; [(232,1)]; [(200,1)]; [(201,1)]; [(202,1)]; [(203,1)]; [(204,1)]; [(205,1)]; [(206,1)]; [(207,1)];
   [(233,1)]; [(234,1)]; [(235,1)]; [(236,1)]; [(237,1)]; [(238,1)]; [(239,1)]; [(240,1)]; [(192,1)];
   [(193,1);(194,1)]; [(195,1)]; [(196,1)]; [(197,1)]; [(198,1)]; [(199,1)]; [(61,4);(62,4);(63,4)]; [(64,4)];
   [(65,4)]; [(97,1)]; [(66,4)]; [(727,2)]; [(67,4)]; [(68,4)]; [(69,4)]; [(70,4)]; [(71,1)]; [(72,1)]; [(106,4)];
   [(335,4);(336,4);(339,4);(340,4);(341,4);(342,4);(343,4);(344,4);(346,4)]; [(337,4);(338,4)]; [(345,4)]; [(372,4)];
   [(373,4)]; [(725,2)]; [(374,4)]; [(375,4)]; [(376,4)]; [(377,4)]; [(503,3)]; [(751,1)]; [(752,1)]; [(381,4)];
   [(382,4)]; [(383,4)]; [(384,4)]; [(385,4)]; [(386,4)]; [(387,4)]; [(388,4)]; [(393,4)]; [(396,4)]; [(395,4)];
   [(404,1)]; [(405,1)]; [(398,4)]; [(687,2)]; [(688,2)]; [(684,3)]; [(685,3)]; [(588,2);(657,2);(658,2)]; [(677,2)];
   [(678,2)]; [(680,1)]; [(681,1)]; [(23,5)]; [(30,3)]; [(26,3)]; [(24,5)]; [(667,1)]; [(668,1)]; [(669,1)]; [(26,5)];
   [(443,1)]; [(25,5)]; [(513,1);(513,3);(514,1);(516,1)]; [(513,1);(514,1);(514,3);(516,1)]; [(516,3)]; [(533,1)];
   [(534,1);(536,1);(538,1)]; [(535,1)]; [(537,1)]; [(454,2)]; [(450,3)]; [(451,3);(658,3)]; [(588,3);(657,3)];
   [(748,1);(752,1)];
   [(523,3);(559,1);(560,1);(561,1);(562,1);(563,1);(564,1);(565,1);(566,1);(567,1);(568,1);(569,1);(570,1);(573,1);(581,1)];
   [(524,3)]; [(548,1)]; [(549,1)]; [(550,1)]; [(525,3)]; [(527,3)]; [(529,3)]; [(531,3)];
   [(526,3);(559,1);(560,1);(561,1);(562,1);(563,1);(564,1);(565,1);(566,1);(567,1);(568,1);(569,1);(570,1);(573,1);(581,1)];
   [(528,3);(559,1);(560,1);(561,1);(562,1);(563,1);(564,1);(565,1);(566,1);(567,1);(568,1);(569,1);(570,1);(573,1);(581,1)];
   [(530,3);(559,1);(560,1);(561,1);(562,1);(563,1);(564,1);(565,1);(566,1);(567,1);(568,1);(569,1);(570,1);(573,1);(581,1)];
   [(559,1);(559,3);(560,1);(561,1);(562,1);(563,1);(564,1);(565,1);(566,1);(567,1);(568,1);(569,1);(570,1);(573,1);(581,1)];
   [(559,1);(560,1);(560,3);(561,1);(562,1);(563,1);(564,1);(565,1);(566,1);(567,1);(568,1);(569,1);(570,1);(573,1);(581,1)];
   [(559,1);(560,1);(561,1);(561,3);(562,1);(563,1);(564,1);(565,1);(566,1);(567,1);(568,1);(569,1);(570,1);(573,1);(581,1)];
   [(559,1);(560,1);(561,1);(562,1);(562,3);(563,1);(564,1);(565,1);(566,1);(567,1);(568,1);(569,1);(570,1);(573,1);(581,1)];
   [(559,1);(560,1);(561,1);(562,1);(563,1);(563,3);(564,1);(565,1);(566,1);(567,1);(568,1);(569,1);(570,1);(573,1);(581,1)];
   [(559,1);(560,1);(561,1);(562,1);(563,1);(564,1);(564,3);(565,1);(566,1);(567,1);(568,1);(569,1);(570,1);(573,1);(581,1)];
   [(559,1);(560,1);(561,1);(562,1);(563,1);(564,1);(565,1);(565,3);(566,1);(567,1);(568,1);(569,1);(570,1);(573,1);(581,1)];
   [(559,1);(560,1);(561,1);(562,1);(563,1);(564,1);(565,1);(566,1);(566,3);(567,1);(568,1);(569,1);(570,1);(573,1);(581,1)];
   [(559,1);(560,1);(561,1);(562,1);(563,1);(564,1);(565,1);(566,1);(567,1);(567,3);(568,1);(569,1);(570,1);(573,1);(581,1)];
   [(559,1);(560,1);(561,1);(562,1);(563,1);(564,1);(565,1);(566,1);(567,1);(568,1);(568,3);(569,1);(570,1);(573,1);(581,1)];
   [(559,1);(560,1);(561,1);(562,1);(563,1);(564,1);(565,1);(566,1);(567,1);(568,1);(569,1);(569,3);(570,1);(573,1);(581,1)];
   [(559,1);(560,1);(561,1);(562,1);(563,1);(564,1);(565,1);(566,1);(567,1);(568,1);(569,1);(570,1);(570,3);(573,1);(581,1)];
   [(573,3)]; [(624,1)]; [(625,1)]; [(581,3)]; [(520,2)]; [(571,3)]; [(572,3)]; [(580,3)]; [(586,3)]; [(587,3)];
   [(445,1);(447,1)]; [(446,1)]; [(551,3)]; [(553,2)]; [(705,3)]; [(27,1);(28,2);(551,2)]; [(447,1);(589,3)];
   [(447,1);(590,3)]; [(513,1);(514,1);(516,1);(591,3);(593,3)]; [(513,1);(514,1);(516,1);(592,3)];
   [(594,3);(595,3);(596,3)]; [(656,1)]; [(657,1);(658,1)]; [(597,3);(598,3);(599,3)]; [(447,1);(600,3)]; [(601,3)];
   [(602,3);(652,1)]; [(651,1)]; [(653,1)]; [(603,3)]; [(614,2)]; [(641,2)]; [(447,1);(615,3)]; [(616,3)];
   [(447,1);(617,3)]; [(447,1);(618,3)]; [(31,5);(32,5)]; [(44,1)]; [(500,2)]; [(35,5);(708,1)]; [(707,1)]; [(709,1)];
   [(460,3);(473,1);(474,1);(475,1);(476,1)]; [(473,3)]; [(474,3)]; [(473,1);(474,1);(475,1);(475,3);(476,1)];
   [(476,3)]; [(491,2)]; [(492,2)]; [(494,2)]; [(495,2)]; [(496,2)]; [(497,2)]; [(498,2)]; [(499,2)]; [(464,3)];
   [(465,3)]; [(466,3)]; [(505,1)]; [(506,1)]; [(507,1)]; [(467,3)]; [(487,2)]; [(36,5)]; [(37,5)]; [(38,5);(460,1)];
   [(42,3)]; [(711,3)]; [(47,5);(50,1)]; [(50,2)]; [(51,2)]; [(52,2)]; [(53,2)]; [(712,3)]; [(713,3)];
   [(513,1);(514,1);(516,1);(714,3)]; [(715,3)]; [(264,1)]; [(265,1)]; [(107,4);(328,1)]; [(327,1);(330,1);(331,1)];
   [(329,1)]; [(332,1)]; [(333,1)]; [(334,1)]; [(109,3)]; [(110,3)]; [(111,3)]; [(112,3)]; [(266,1)];
   [(306,1);(307,1);(308,1);(309,1);(310,1)]; [(311,1);(316,1)]; [(292,1)]; [(293,1)]; [(294,1);(295,1)];
   [(296,1);(297,1)]; [(298,1);(299,1)]; [(300,1)]; [(301,1)]; [(120,2)]; [(121,2);(139,2)]; [(122,2)];
   [(123,2);(132,2)]; [(124,2)]; [(125,2)]; [(126,2)]; [(127,2)]; [(128,2)]; [(129,2);(130,2)]; [(131,2)]; [(133,2)];
   [(134,2);(135,2)]; [(136,2);(137,2)]; [(138,2)]; [(140,1);(141,1);(142,1)]; [(119,2)]; [(258,1)]; [(259,1)];
   [(114,2)]; [(254,1)]; [(180,2)]; [(244,1)]; [(210,2)]; [(211,2)]; [(216,2)]; [(212,2)]; [(213,2)]; [(214,2)];
   [(217,2)]; [(218,2)]; [(219,2)]; [(261,1);(262,1)]; [(220,2)]; [(221,2)]; [(222,2)]; [(223,2)]; [(231,2)];
   [(232,2)]; [(201,2)]; [(202,2)]; [(203,2)]; [(205,2)]; [(192,2)]; [(246,1)]; [(193,2)]; [(194,2)]; [(195,2)];
   [(196,2)]; [(248,1);(249,1)]; [(197,2)]; [(61,5);(62,5);(63,5)]; [(64,5)]; [(65,5)]; [(100,1)]; [(97,2)]; [(98,1)];
   [(66,5)]; [(727,3)]; [(67,5)]; [(68,5)]; [(69,5)]; [(73,1)]; [(74,1)]; [(75,1)]; [(70,5)]; [(335,5)];
   [(336,5);(339,5);(341,5)]; [(340,5);(342,5)]; [(343,5);(344,5)]; [(346,5)]; [(730,1)]; [(731,1)]; [(732,1)];
   [(733,1)]; [(734,1)]; [(735,1)]; [(736,1)]; [(737,1)]; [(738,1)]; [(739,1)]; [(367,1)]; [(337,5);(338,5)];
   [(372,5)]; [(374,5)]; [(375,5)]; [(395,5)]; [(411,1)]; [(412,1)]; [(688,3)]; [(513,1);(514,1);(516,1);(684,4)];
   [(513,1);(514,1);(516,1);(685,4)]; [(658,3)]; [(677,3)]; [(23,6)]; [(24,6)]; [(722,1)]; [(723,1)]; [(668,2)];
   [(669,2)]; [(26,6);(447,1)]; [(534,2)]; [(536,2)]; [(538,2)]; [(451,4);(658,4)]; [(588,4)]; [(525,4)];
   [(527,4);(559,1);(560,1);(561,1);(562,1);(563,1);(564,1);(565,1);(566,1);(567,1);(568,1);(569,1);(570,1);(573,1);(581,1)];
   [(529,4);(559,1);(560,1);(561,1);(562,1);(563,1);(564,1);(565,1);(566,1);(567,1);(568,1);(569,1);(570,1);(573,1);(581,1)];
   [(531,4);(559,1);(560,1);(561,1);(562,1);(563,1);(564,1);(565,1);(566,1);(567,1);(568,1);(569,1);(570,1);(573,1);(581,1)];
   [(526,4)]; [(547,1)]; [(530,4)]; [(520,3)]; [(586,4)]; [(447,1);(587,4)]; [(447,2)];
   [(513,1);(514,1);(516,1);(553,3)]; [(28,3);(551,3)]; [(589,4)]; [(590,4)]; [(591,4)]; [(593,4)]; [(592,4)];
   [(594,4);(595,4)]; [(596,4)]; [(657,2);(658,2)]; [(597,4);(598,4)]; [(599,4)]; [(600,4)]; [(447,1);(601,4)];
   [(602,4)]; [(652,2)]; [(655,1)]; [(513,1);(514,1);(516,1);(653,2)]; [(603,4)]; [(615,4)]; [(616,4)]; [(617,4)];
   [(618,4)]; [(31,6)]; [(32,6)]; [(689,1)]; [(27,1);(690,1)]; [(28,1);(691,1);(692,1);(693,1);(694,1)]; [(44,2)];
   [(35,6)]; [(708,2)]; [(509,1)]; [(709,2)]; [(473,4)]; [(480,1)]; [(477,1)]; [(478,1)]; [(474,4)]; [(482,1)];
   [(475,4)]; [(495,3)]; [(497,3)]; [(505,2)]; [(506,2)]; [(507,2)]; [(467,4);(472,1)]; [(471,1)]; [(36,6)];
   [(37,6);(460,1)]; [(38,6)]; [(50,3)]; [(51,3)]; [(54,1)]; [(55,1);(56,1)]; [(57,1)]; [(265,2)]; [(328,2)];
   [(330,2)]; [(331,2)]; [(266,2)]; [(306,2)]; [(307,2);(308,2);(309,2);(310,2)]; [(321,1)]; [(311,2)];
   [(316,2);(323,1)]; [(292,2)]; [(293,2)]; [(294,2)]; [(295,2)]; [(296,2)]; [(297,2)]; [(298,2);(299,2)]; [(121,3)];
   [(139,3)]; [(123,3);(132,3)]; [(124,3)]; [(127,3)]; [(129,3)]; [(131,3)]; [(133,3)]; [(134,3);(135,3)];
   [(136,3);(137,3)]; [(151,1)]; [(152,1)]; [(138,3)]; [(140,2)]; [(141,2);(142,2)]; [(143,1)]; [(144,1)]; [(145,1)];
   [(146,1)]; [(147,1)]; [(148,1)]; [(149,1)]; [(150,1)]; [(167,1);(168,1)]; [(169,1);(170,1)]; [(171,1)]; [(172,1)];
   [(258,2)]; [(114,3)]; [(256,1)]; [(244,2)]; [(210,3)]; [(211,3)]; [(216,3)]; [(212,3)]; [(213,3)]; [(214,3)];
   [(219,3)]; [(261,2);(262,2)]; [(220,3)]; [(221,3)]; [(222,3)]; [(223,3)]; [(231,3);(242,1)]; [(241,1)];
   [(232,3);(242,1)]; [(201,3)]; [(251,1)]; [(252,1)]; [(202,3)]; [(246,2)]; [(193,3)]; [(248,2);(249,2)];
   [(61,6);(63,6)]; [(62,6)]; [(27,1);(64,6)]; [(100,2);(102,1)]; [(101,1)]; [(103,1)]; [(68,6)]; [(82,1);(83,1)];
   [(69,6)]; [(70,6)]; [(335,6)]; [(336,6)]; [(339,6)]; [(341,6)]; [(360,1)]; [(361,1)]; [(362,1)]; [(363,1)];
   [(364,1)]; [(365,1)]; [(366,1)]; [(340,6)]; [(342,6)]; [(347,1)]; [(348,1)]; [(349,1)]; [(350,1)]; [(351,1)];
   [(352,1)]; [(353,1)]; [(354,1)]; [(355,1)]; [(356,1)]; [(357,1)]; [(343,6)]; [(344,6)]; [(741,1)]; [(742,1)];
   [(743,1)]; [(744,1)]; [(367,2)]; [(337,6);(338,6)]; [(374,6)]; [(395,6)]; [(414,1)]; [(415,1)]; [(411,2)];
   [(412,2)]; [(688,4)]; [(658,4)]; [(24,7)]; [(26,7)]; [(458,1)]; [(451,5)]; [(658,5)]; [(588,5)]; [(527,5)];
   [(531,5)];
   [(547,2);(559,1);(560,1);(561,1);(562,1);(563,1);(564,1);(565,1);(566,1);(567,1);(568,1);(569,1);(570,1);(573,1);(581,1)];
   [(530,5);(559,1);(560,1);(561,1);(562,1);(563,1);(564,1);(565,1);(566,1);(567,1);(568,1);(569,1);(570,1);(573,1);(581,1)];
   [(587,5)]; [(447,3)]; [(591,5)]; [(626,1)]; [(627,1);(628,1)]; [(629,1)]; [(630,1)]; [(631,1)]; [(632,1)];
   [(633,1)]; [(634,1)]; [(635,1);(636,1)]; [(637,1)]; [(638,1);(639,1)]; [(593,5)]; [(592,5)];
   [(559,1);(560,1);(561,1);(562,1);(563,1);(564,1);(565,1);(566,1);(567,1);(568,1);(569,1);(570,1);(573,1);(581,1);(594,5);(595,5)];
   [(559,1);(560,1);(561,1);(562,1);(563,1);(564,1);(565,1);(566,1);(567,1);(568,1);(569,1);(570,1);(573,1);(581,1);(596,5)];
   [(657,3)];
   [(559,1);(560,1);(561,1);(562,1);(563,1);(564,1);(565,1);(566,1);(567,1);(568,1);(569,1);(570,1);(573,1);(581,1);(597,5);(598,5)];
   [(559,1);(560,1);(561,1);(562,1);(563,1);(564,1);(565,1);(566,1);(567,1);(568,1);(569,1);(570,1);(573,1);(581,1);(599,5)];
   [(600,5)]; [(601,5)]; [(602,5)]; [(513,1);(514,1);(516,1);(655,2)]; [(653,3)]; [(31,7)]; [(700,1)];
   [(32,7);(708,1)]; [(689,2);(702,1)]; [(701,1)]; [(703,1)]; [(704,1);(705,1)]; [(27,1);(28,2);(691,2)];
   [(692,2);(693,2);(694,2);(697,1);(698,1)]; [(695,1);(696,1)]; [(44,3);(472,1)]; [(35,7)]; [(708,3)];
   [(509,2);(513,1);(514,1);(516,1)]; [(513,1);(514,1);(516,1);(709,3)]; [(477,2);(513,1);(514,1);(516,1)]; [(478,2)];
   [(482,2);(513,1);(514,1);(516,1)]; [(505,3)]; [(506,3)]; [(507,3)]; [(467,5)]; [(472,2)]; [(36,7)]; [(37,7)];
   [(54,2)]; [(55,2)]; [(56,2)]; [(328,3);(330,1);(331,1)]; [(331,3)]; [(266,3);(303,1)]; [(302,1)]; [(304,1)];
   [(305,1)]; [(307,3);(309,3)]; [(308,3);(310,3)]; [(321,2)]; [(311,3)]; [(316,3)]; [(293,3)]; [(294,3)]; [(296,3)];
   [(298,3)]; [(299,3)]; [(139,4)]; [(123,4)]; [(132,4)]; [(124,4)]; [(131,4)]; [(135,4)]; [(136,4);(137,4)];
   [(152,2)]; [(138,4)]; [(141,3)]; [(142,3)]; [(143,2)]; [(176,1);(177,1);(178,1);(179,1)]; [(150,2)]; [(167,2)];
   [(168,2);(244,1)]; [(169,2)]; [(170,2);(244,1)]; [(172,2)]; [(244,3)]; [(210,4)]; [(211,4)]; [(216,4)]; [(212,4)];
   [(213,4)]; [(214,4)]; [(261,3)]; [(262,3)]; [(231,4)]; [(242,2)]; [(232,4)]; [(251,2)]; [(252,2)]; [(246,3)];
   [(248,3)]; [(249,3)]; [(61,7);(63,7)]; [(62,7)]; [(102,2)]; [(103,2)]; [(68,7)];
   [(85,1);(86,1);(87,1);(88,1);(89,1)]; [(82,2)]; [(83,2)]; [(69,7)]; [(70,7)]; [(336,7)]; [(358,1)]; [(359,1)];
   [(339,7)]; [(341,7)]; [(340,7)]; [(342,7)]; [(343,7)]; [(344,7)]; [(367,3)]; [(311,1);(337,7)]; [(338,7)];
   [(414,2)]; [(415,2);(513,1);(514,1);(516,1)]; [(26,8)]; [(458,2);(460,1)]; [(588,6)];
   [(531,6);(559,1);(560,1);(561,1);(562,1);(563,1);(564,1);(565,1);(566,1);(567,1);(568,1);(569,1);(570,1);(573,1);(581,1)];
   [(591,6)]; [(626,2)]; [(627,2);(628,2)]; [(630,2)]; [(631,2)]; [(634,2)]; [(636,2)]; [(637,2)]; [(639,2)];
   [(593,6)]; [(592,6)]; [(594,6)]; [(595,6)]; [(596,6)]; [(597,6)]; [(598,6)]; [(599,6)]; [(600,6)]; [(601,6)];
   [(650,1)]; [(513,1);(514,1);(516,1);(653,4)]; [(700,2)]; [(32,8)]; [(702,2)]; [(704,2)]; [(28,3);(691,3)];
   [(692,3);(693,3);(694,3)]; [(697,2);(698,2)]; [(696,2)]; [(44,4)]; [(35,8)]; [(470,1);(478,3)]; [(468,1)];
   [(469,1)]; [(470,1);(505,4)]; [(470,1);(506,4)]; [(470,1);(507,4)]; [(467,6)]; [(472,3)]; [(36,8)]; [(266,4)];
   [(303,2)]; [(304,2)]; [(305,2)]; [(307,4);(309,4)]; [(312,1)]; [(313,1)]; [(314,1)]; [(315,1)]; [(308,4);(310,4)];
   [(321,3)]; [(311,4)]; [(316,4)]; [(299,4)]; [(132,5)]; [(131,5);(513,1);(514,1);(516,1)]; [(135,5);(470,1)];
   [(136,5);(137,5)]; [(138,5)]; [(141,4)]; [(142,4)]; [(176,2)]; [(177,2)]; [(178,2)]; [(179,2)]; [(150,3)];
   [(168,3)]; [(170,3)]; [(172,3)]; [(216,5)]; [(231,5)]; [(242,3)]; [(232,5)]; [(251,3)]; [(252,3)]; [(246,4)];
   [(249,4)]; [(61,8)]; [(63,8)]; [(62,8)]; [(102,3)]; [(103,3)]; [(68,8)]; [(85,2)]; [(86,2)]; [(87,2)]; [(88,2)];
   [(89,2)]; [(69,8)]; [(70,8)]; [(336,8)]; [(341,8)]; [(367,4)]; [(323,1);(337,8)]; [(26,9)]; [(671,1)]; [(627,3)];
   [(628,3)];
   [(559,1);(560,1);(561,1);(562,1);(563,1);(564,1);(565,1);(566,1);(567,1);(568,1);(569,1);(570,1);(573,1);(581,1);(595,7)];
   [(559,1);(560,1);(561,1);(562,1);(563,1);(564,1);(565,1);(566,1);(567,1);(568,1);(569,1);(570,1);(573,1);(581,1);(596,7)];
   [(559,1);(560,1);(561,1);(562,1);(563,1);(564,1);(565,1);(566,1);(567,1);(568,1);(569,1);(570,1);(573,1);(581,1);(598,7)];
   [(559,1);(560,1);(561,1);(562,1);(563,1);(564,1);(565,1);(566,1);(567,1);(568,1);(569,1);(570,1);(573,1);(581,1);(599,7)];
   [(559,1);(560,1);(561,1);(562,1);(563,1);(564,1);(565,1);(566,1);(567,1);(568,1);(569,1);(570,1);(573,1);(581,1);(600,7)];
   [(601,7)]; [(650,2)]; [(700,3)]; [(702,3)]; [(692,4)]; [(27,1);(693,4)]; [(28,1);(694,4)]; [(697,3);(698,3)];
   [(696,3)]; [(470,2)]; [(478,4)]; [(505,5)]; [(506,5)]; [(507,5)]; [(467,7)]; [(266,5)]; [(268,1);(271,1)];
   [(269,1);(277,1)]; [(270,1)]; [(274,1)]; [(275,1)]; [(276,1)]; [(278,1)]; [(279,1)]; [(280,1)]; [(281,1)];
   [(282,1)]; [(283,1)]; [(284,1)]; [(303,3)]; [(304,3)]; [(307,5)]; [(309,5)]; [(314,2)]; [(315,2)]; [(308,5)];
   [(310,5)]; [(311,5)]; [(323,1)]; [(316,5)]; [(132,6)]; [(131,6)]; [(135,6)]; [(137,6)]; [(138,6)]; [(142,5)];
   [(176,3)]; [(177,3)]; [(231,6)]; [(232,6)]; [(246,5)]; [(249,5)]; [(61,9);(303,1)]; [(63,9)]; [(62,9)];
   [(68,9);(325,1)]; [(324,1)]; [(69,9)]; [(70,9);(77,1)]; [(76,1)]; [(78,1)]; [(79,1)]; [(80,1)]; [(336,9)];
   [(341,9);(470,1)]; [(367,5)]; [(337,9)]; [(26,10)]; [(673,1)]; [(671,2)]; [(595,8)]; [(596,8)]; [(598,8)];
   [(599,8)]; [(600,8)]; [(620,1);(621,1);(622,1)]; [(623,1)]; [(700,4)]; [(692,5);(702,1)]; [(27,1);(28,2);(694,5)];
   [(698,4)]; [(470,3)]; [(266,6)]; [(290,1);(291,1)]; [(271,2)]; [(277,1)]; [(269,2)]; [(277,2)]; [(274,2)];
   [(275,2)]; [(286,1)]; [(276,2)]; [(278,2)]; [(279,2)]; [(280,2)]; [(281,2)]; [(282,2)]; [(283,2)]; [(284,2)];
   [(309,6)]; [(310,6)]; [(311,6)]; [(316,6)]; [(132,7);(513,1);(514,1);(516,1)]; [(131,7)]; [(174,1)];
   [(137,7);(154,1);(155,1);(156,1);(157,1);(158,1);(159,1);(160,1);(161,1);(162,1);(163,1);(164,1);(165,1);(166,1)];
   [(138,7)]; [(142,6)]; [(61,10)]; [(63,10)]; [(62,10)]; [(68,10)]; [(325,2)]; [(91,1)]; [(69,10)]; [(77,2)];
   [(303,1);(336,10)]; [(341,10)]; [(367,6);(369,1)]; [(368,1)]; [(370,1);(371,1)]; [(337,10)];
   [(513,1);(514,1);(516,1);(673,2)]; [(553,1);(671,3)]; [(600,9)]; [(620,2)]; [(621,2);(622,2)]; [(623,2)];
   [(700,5);(708,1)]; [(28,3);(694,6)]; [(698,5)]; [(290,2);(291,2)]; [(269,3);(273,1)]; [(272,1)]; [(277,3)];
   [(275,3)]; [(278,3)]; [(287,1)]; [(288,1)]; [(279,3)]; [(280,3)]; [(281,3)]; [(282,3)]; [(283,3)]; [(284,3)];
   [(309,7)]; [(310,7)]; [(311,7);(325,1)]; [(303,1);(316,7)]; [(132,8)]; [(174,2)]; [(137,8)]; [(154,2);(155,2)];
   [(156,2);(157,2)]; [(158,2)]; [(159,2)]; [(160,2)]; [(161,2);(162,2);(163,2)]; [(164,2)]; [(165,2);(166,2)];
   [(61,11)]; [(511,1)]; [(63,11);(303,1)]; [(62,11);(303,1)]; [(68,11)]; [(93,1)]; [(325,3)];
   [(91,2);(513,1);(514,1);(516,1)]; [(69,11)]; [(336,11)]; [(341,11)]; [(367,7)]; [(369,2)]; [(370,2);(371,2)];
   [(337,11)]; [(620,3)]; [(621,3);(622,3)]; [(623,3)]; [(291,3)]; [(269,4)]; [(273,2)]; [(309,8)]; [(310,8)];
   [(311,8)]; [(316,8)]; [(154,3)]; [(155,3)]; [(156,3)]; [(157,3)]; [(158,3)]; [(159,3)]; [(160,3)]; [(161,3)];
   [(162,3)]; [(163,3)]; [(165,3);(166,3)]; [(61,12)]; [(511,2)]; [(63,12)]; [(62,12)]; [(93,2)]; [(341,12)];
   [(369,3)]; [(370,3);(371,3)]; [(303,1);(337,12)]; [(621,4);(622,4)]; [(291,4)]; [(273,3)]; [(311,9)]; [(316,9)];
   [(154,4)]; [(156,4)]; [(165,4)]; [(166,4)]; [(61,13)]; [(470,1);(511,3)]; [(63,13)]; [(62,13)];
   [(93,3);(513,1);(514,1);(516,1)]; [(370,4);(371,4)]; [(337,13)]; [(622,5)]; [(291,5)]; [(311,10)]; [(316,10)];
   [(166,5)]; [(61,14)]; [(511,4)]; [(63,14)]; [(370,5);(371,5)]; [(622,6)]; [(311,11)]; [(166,6)]; [(370,6);(371,6)];
   [(622,7)]; [(311,12);(325,1)];
   [(370,7);(559,1);(560,1);(561,1);(562,1);(563,1);(564,1);(565,1);(566,1);(567,1);(568,1);(569,1);(570,1);(573,1);(581,1)];
   [(371,7)]; [(311,13)]; [(370,8)]; [(371,8)] ].

(** For each state, the nonterminals the point may stand before. *)
Definition closure_list : list (list Z) :=
  [
   [1;2;3;4;6;7;8;9;10;11;12;13;14;15;16;17;18;19;20;21;22;23;27;205;207]; []; [206]; []; []; []; []; []; []; []; [];
   []; []; []; []; []; []; []; []; []; []; [82]; [26]; [24;212]; [24;212]; [24;212]; [24;212]; [24;212]; [24;212];
   [165]; [121;192]; [103]; []; []; [51;116;123]; []; [105;132]; [116;123]; []; []; []; []; [128]; [128]; [128];
   [128]; [128]; [2;3;4;207]; []; []; []; []; []; [86]; []; [3;5;207]; []; [30]; [25];
   [36;37;56;57;60;61;63;64;65;66;71;73;74;75;116;117;123;207]; [103]; [39;40;41;42;51;53;74;116;123;207];
   [46;51;116;123]; [95;97;99;115;116;117;118;131]; []; [154;166]; [196]; []; [116;117]; [111]; [111]; [116;117];
   [116;117]; [111]; []; []; []; [51;116;123]; []; [51;116;123]; [110]; []; [110]; [110]; [110]; [51;116;123]; []; [];
   []; []; []; []; []; []; []; []; []; []; []; []; []; []; []; []; []; []; []; []; []; []; []; []; []; []; []; []; [];
   []; []; []; []; []; []; []; []; []; []; []; []; []; []; []; []; []; []; []; []; []; []; []; []; []; []; []; []; [];
   []; []; []; []; []; []; []; []; []; []; []; []; []; []; []; []; []; []; []; []; []; []; []; []; []; []; []; []; [];
   []; []; []; []; []; []; []; []; []; []; []; []; []; []; []; []; []; []; []; []; []; []; []; []; []; []; []; []; [];
   []; []; []; []; []; []; []; []; []; []; []; []; []; []; []; []; []; []; []; [51;116;123]; []; []; [];
   [115;116;117;118;129;207]; [115;116;117;118;129;207]; [115;116;117;118;129;207]; [115;116;117;118;129;207]; [];
   [115;116;117;118;129;207]; [106]; []; []; []; []; []; [115;116;117;118;129;207]; []; []; []; []; []; []; []; [];
   []; []; [208]; [87]; [37;56;57;60;61;63;64;65;66;71;73;74;75;116;117;123;207];
   [37;56;57;60;61;63;64;65;66;71;73;74;75;83;84;116;117;123;207]; [82]; []; [2;3;4;207]; [24;212]; []; []; [28]; [];
   []; []; []; []; [116;117;119;120]; []; []; [37;56;57;60;61;63;64;65;66;71;73;74;75;116;117;123;207]; [58];
   [104;207]; []; []; [74;207]; []; []; []; []; []; [57;60;61;63;64;65;66;71;73;74;75;116;117;123;207];
   [57;60;61;63;64;65;66;71;73;74;75;116;117;123;207]; [57;60;61;63;64;65;66;71;73;74;75;116;117;123;207];
   [57;60;61;63;64;65;66;71;73;74;75;116;117;123;207]; [57;60;61;63;64;65;66;71;73;74;75;116;117;123;207];
   [57;60;61;63;64;65;66;71;73;74;75;116;117;123;207]; [57;60;61;63;64;65;66;71;73;74;75;116;117;123;207]; []; []; [];
   []; []; []; []; []; []; []; []; []; []; []; [207]; [];
   [2;3;4;37;56;57;60;61;63;64;65;66;69;71;73;74;75;116;117;123;207]; [207]; [207]; [207]; [207]; [207]; [207]; [207];
   [207]; [37;56;57;60;61;63;64;65;66;71;73;74;75;78;116;117;123;207]; [207]; [207;213]; [207;213]; [207;213];
   [207;213]; [207;213]; [207;213]; [207;213]; [207;213]; [134;136;137]; [207]; [207]; [207]; [207]; [51;52;116;123];
   []; [47;48;49;50]; []; []; []; [127]; [2;3;4;39;40;41;42;51;53;74;116;123;207]; [116;123;125;126]; [46;51;116;123];
   [209]; []; []; [95;97;99;115;116;117;118]; [96;100]; []; []; []; []; [116;117;122]; []; []; []; []; []; []; []; [];
   []; []; []; []; []; []; []; []; []; []; []; []; []; []; []; []; []; []; []; []; []; []; []; []; []; []; []; []; [];
   []; []; []; []; []; []; []; []; []; []; []; []; []; []; []; []; []; []; []; []; []; []; []; []; []; []; []; []; [];
   []; []; []; []; []; []; []; []; []; []; []; []; []; []; []; []; []; []; []; []; []; []; []; []; []; []; []; []; [];
   []; []; []; []; []; []; []; []; []; []; []; []; []; []; []; []; []; []; []; []; [];
   [135;136;137;138;139;140;141;142;155]; []; []; []; [51;116;123]; [185]; []; []; []; []; [201]; [51;116;123]; [];
   [51;116;123]; [115;116;117;118;129;207]; []; [51;116;123]; []; []; [51;116;123]; []; []; []; [115;116;123;124]; [];
   [115;116;117;118;129;207]; [115;116;117;118;129;207]; [115;116;117;118;129;207]; [115;116;117;118;129;207];
   [115;116;117;118;129;207]; [115;116;117;118;129;207]; [115;116;117;118;129;207]; [115;116;117;118;129;207]; []; [];
   []; []; []; []; [115;116;117;118;129;207]; [115;116;117;118;129;207]; []; [108]; []; [51;116;123]; []; []; []; [];
   []; []; []; []; []; []; [85]; [86]; [208]; [30]; [62;116;117]; [29]; []; []; [51;116;123]; [];
   [37;56;57;60;61;63;64;65;66;71;73;74;75;116;117;123;207]; [37;56;57;60;61;63;64;65;66;71;73;74;75;116;117;123;207];
   [67]; []; [116;117;119]; []; []; [115;116;117;118;123;124]; []; [57;60;61;63;64;65;66;71;73;74;75;116;117;123;207];
   [68;71;74;207]; []; [57;60;61;63;64;65;66;71;73;74;75;116;117;123;207];
   [57;60;61;63;64;65;66;71;73;74;75;116;117;123;207]; [57;60;61;63;64;65;66;71;73;74;75;116;117;123;207];
   [57;60;61;63;64;65;66;71;73;74;75;116;117;123;207]; [57;60;61;63;64;65;66;71;73;74;75;116;117;123;207];
   [57;60;61;63;64;65;66;71;73;74;75;116;117;123;207]; [57;60;61;63;64;65;66;71;73;74;75;116;117;123;207];
   [57;60;61;63;64;65;66;71;73;74;75;116;117;123;207]; [57;60;61;63;64;65;66;71;73;74;75;116;117;123;207];
   [57;60;61;63;64;65;66;71;73;74;75;116;117;123;207]; [57;60;61;63;64;65;66;71;73;74;75;116;117;123;207];
   [57;60;61;63;64;65;66;71;73;74;75;116;117;123;207]; [57;60;61;63;64;65;66;71;73;74;75;116;117;123;207];
   [57;60;61;63;64;65;66;71;73;74;75;116;117;123;207]; [57;60;61;63;64;65;66;71;73;74;75;116;117;123;207]; [130];
   [134;136;137]; []; []; []; []; []; []; []; []; []; []; [2;3;4;207]; [60]; [60]; []; []; []; []; []; []; [116;117];
   [34;35;36;37;56;57;60;61;63;64;65;66;71;73;74;75;116;117;123;207]; [208]; [208]; [];
   [2;3;4;37;56;57;60;61;63;64;65;66;69;71;73;74;75;116;117;123;207];
   [34;36;37;56;57;60;61;63;64;65;66;71;73;74;75;116;117;123;207];
   [34;36;37;56;57;60;61;63;64;65;66;71;73;74;75;116;117;123;207];
   [37;56;57;60;61;63;64;65;66;71;73;74;75;116;117;123;207]; [37;56;57;60;61;63;64;65;66;71;73;74;75;116;117;123;207];
   [75;116;117;123]; [75;116;117;123]; [34;36;37;56;57;60;61;63;64;65;66;71;73;74;75;116;117;123;207]; [28]; [76;77];
   []; [75;116;117;123]; []; [208]; []; []; []; []; []; []; []; []; []; []; []; []; []; []; []; []; []; []; []; [];
   []; []; []; []; []; []; []; [34;36;37;56;57;60;61;63;64;65;66;71;73;74;75;116;117;123;207];
   [34;35;36;37;56;57;60;61;63;64;65;66;71;73;74;75;116;117;123;207];
   [34;36;37;56;57;60;61;63;64;65;66;71;73;74;75;116;117;123;207];
   [34;36;37;56;57;60;61;63;64;65;66;71;73;74;75;116;117;123;207]; [91]; [51;116;123]; []; [75;94;98;116;117;123];
   [40;41;42;51;53;74;116;123;207]; [41;51;53;74;116;123;207]; [41;51;53;74;116;123;207];
   [40;41;42;51;53;74;116;123;207]; [41;51;53;74;116;123;207]; []; []; []; []; []; []; [48]; [116;123]; []; [208];
   [2;3;4;39;40;41;42;51;53;74;116;123;207]; [54]; [207]; []; [116;123;125]; []; []; [91]; [];
   [39;40;41;42;51;53;74;116;123;207]; [51;116;123]; []; []; [97;99;115;116;117;118]; []; [96;100]; []; []; []; [];
   [37;56;57;60;61;63;64;65;66;71;73;74;75;116;117;123;207]; [146]; []; []; []; []; [115;116;117;118;167;168;169];
   [154;156;157;158;159;163;170]; [198]; [149]; [147]; []; []; []; []; [143]; []; [143]; [143]; [143]; [143]; [143];
   []; [143]; [143]; [145]; [145]; [145]; [145]; [145]; []; []; []; []; []; []; []; []; []; []; [143]; [143]; [143];
   []; [143]; []; []; []; []; []; []; []; []; []; []; [151]; [151]; [151]; [152]; [152]; []; []; [116;117]; []; [183];
   [184]; [115;116;117;118;129;207]; []; [115;116;117;118;129;207]; [51;116;123]; [202]; [51;116;123]; []; []; [];
   [112;180]; [51;116;123]; []; [51;116;123]; []; []; [51;116;123]; [115;116;117;118;129;207]; []; []; []; []; []; [];
   []; []; []; []; []; []; []; []; []; [107]; []; []; []; []; [];
   [37;56;57;60;61;63;64;65;66;71;73;74;75;116;117;123;207]; [37;56;57;60;61;63;64;65;66;71;73;74;75;116;117;123;207];
   [115;116;117;118;123;124]; [37;56;57;60;61;63;64;65;66;71;73;74;75;84;116;117;123;207]; []; []; []; [87]; []; [28];
   [102]; []; []; []; [34;36;37;56;57;60;61;63;64;65;66;71;73;74;75;116;117;123;207]; []; []; []; []; []; []; []; [];
   []; []; []; []; [207]; []; []; []; []; []; []; [68;71;74;207]; [57;60;61;63;64;65;66;71;73;74;75;116;117;123;207];
   [57;60;61;63;64;65;66;71;73;74;75;116;117;123;207]; [57;60;61;63;64;65;66;71;73;74;75;116;117;123;207]; [33]; [];
   []; []; []; []; []; []; []; []; []; []; []; []; []; []; []; []; []; [208]; []; []; []; [208];
   [34;36;37;56;57;60;61;63;64;65;66;71;73;74;75;116;117;123;207]; []; []; [];
   [37;56;57;60;61;63;64;65;66;71;73;74;75;116;117;123;207]; []; [208]; [208]; [208]; []; []; []; []; []; []; [208];
   [34;36;37;56;57;60;61;63;64;65;66;71;73;74;75;116;117;123;207]; [77;79]; [];
   [37;56;57;60;61;63;64;65;66;71;73;74;75;116;117;123;207]; [208]; []; []; [208]; [208]; [208]; [208];
   [2;3;4;59;207]; [207]; []; [55]; []; []; [47;48;49;50]; [43;44]; [45]; [43;47;48;49;50]; []; []; []; []; []; [];
   []; []; []; []; []; []; []; []; []; [92;116;117]; []; [55]; [39;40;41;42;51;53;74;116;123;207]; [55]; []; []; [];
   [100]; [101]; []; []; []; []; []; []; []; []; []; [115;116;117;118;169]; []; []; []; []; []; []; []; []; []; [197];
   [116;117;161]; []; [163]; [163]; [163]; []; []; []; []; []; []; [116;117]; []; []; []; []; []; []; [197]; [];
   [116;123]; [194]; []; [57;144;199]; []; []; []; [148]; []; []; []; [145]; [145]; [143]; [145]; [145]; [145]; [];
   []; [146]; []; [146]; [146]; [146]; [146]; [153]; [153]; [150]; [150]; []; []; []; []; [151]; []; []; []; []; [];
   []; [2;3;4;207]; []; [115;116;117;118;181;182]; []; []; []; []; []; [187]; []; []; []; []; [201]; [128]; [121;211];
   [186]; [113;114]; []; []; []; []; []; []; []; []; []; []; []; []; []; []; [115;116;117;118;129;207]; []; [109];
   [116;123]; [116;123]; []; []; []; []; []; []; [51;116;123]; []; []; []; []; [38]; []; []; []; [115;116;117;118];
   [34;35;36;37;56;57;60;61;63;64;65;66;71;73;74;75;116;117;123;207]; []; [33]; []; []; [];
   [57;60;61;63;64;65;66;71;73;74;75;116;117;123;207]; [57;60;61;63;64;65;66;71;73;74;75;116;117;123;207]; []; [];
   [208]; [36;37;56;57;60;61;63;64;65;66;71;73;74;75;116;117;123;207]; []; []; []; []; [133]; [130]; [133];
   [57;60;61;63;64;65;66;71;73;74;75;116;117;123;207]; [57;60;61;63;64;65;66;71;73;74;75;116;117;123;207];
   [115;116;117;118;123;124]; [57;60;61;63;64;65;66;71;73;74;75;116;117;123;207];
   [57;60;61;63;64;65;66;71;73;74;75;116;117;123;207]; []; [82]; []; [];
   [37;56;57;60;61;63;64;65;66;71;73;74;75;116;117;123;207]; []; []; []; []; []; []; [93]; [75;94;98;116;117;123];
   [70;71;72;207]; []; [2;3;4;88;116;117;207]; [92;116;117]; [82]; [75;98;116;117;123];
   [37;56;57;60;61;63;64;65;66;71;73;74;75;116;117;123;207]; [37;56;57;60;61;63;64;65;66;71;73;74;75;116;117;123;207];
   []; []; [37;56;57;60;61;63;64;65;66;71;73;74;75;116;117;123;207]; []; [];
   [37;56;57;60;61;63;64;65;66;71;73;74;75;116;117;123;207]; []; []; []; [207]; [207]; [207]; [208]; []; [82]; [55];
   []; []; []; []; []; []; []; [115;116;117;118;168;169]; []; [115;116;117;118;169]; [116;117;171;172]; []; []; [];
   []; []; []; []; []; []; []; []; [196]; []; []; [198]; [144]; []; []; [207]; []; []; []; []; []; []; [];
   [57;144;199]; [189]; []; []; []; []; []; []; [207]; [143]; [143]; []; []; []; []; []; []; [146]; [146]; [145];
   [146]; [146]; [146]; []; []; []; []; []; []; []; []; []; []; []; []; []; []; []; []; [51;116;123]; [116;117]; [];
   []; []; []; [188]; []; [51;116;123]; [202]; []; [210]; [128]; [116;117]; []; []; []; []; []; []; []; [128];
   [116;117]; []; []; []; []; []; []; []; []; []; []; []; [51;116;123]; [128]; []; []; []; []; [116;117]; [158;159];
   []; []; []; [37;56;57;60;61;63;64;65;66;71;73;74;75;116;117;123;207]; []; []; []; [115;116;117;118]; []; [55];
   [39;40;41;42;51;53;74;116;123;207]; []; []; [208]; []; [57;60;61;63;64;65;66;71;73;74;75;116;117;123;207]; []; [];
   []; []; [208]; [143]; [143]; []; [143]; [152]; []; []; [143]; []; [143]; []; [208]; [208]; [208]; []; []; [208];
   []; [207]; [32]; []; []; [37;56;57;60;61;63;64;65;66;71;73;74;75;116;117;123;207]; []; []; [93]; []; []; [];
   [37;56;57;60;61;63;64;65;66;69;71;73;74;75;116;117;123;207;208]; [208]; [208]; []; [208]; [86]; []; []; []; [];
   [89;116;117]; []; [89;116;117]; [89;116;117]; [89;116;117]; [116;123;125;126]; [116;117]; [86]; []; []; []; [];
   [115;116;117;118;169]; []; []; []; [143]; [143]; [160]; [160]; []; []; []; []; []; []; []; [196]; []; []; [197];
   []; [37;56;57;60;61;63;64;65;66;71;73;74;75;116;117;123;207]; [89;116;117]; []; []; []; []; [57;144;199]; []; [];
   [208]; []; []; []; []; []; []; []; []; [146]; []; []; []; []; []; [145]; []; [145]; []; []; []; []; []; []; [];
   [115;116;117;118;181]; [115;116;117;118;169]; []; []; []; []; []; []; [116;117]; []; []; []; []; []; []; []; [];
   []; [116;117;161]; []; []; []; [80]; []; []; []; []; []; [145]; []; []; []; []; []; []; []; []; [];
   [57;60;61;63;64;65;66;71;73;74;75;116;117;123;207]; [57;60;61;63;64;65;66;71;73;74;75;116;117;123;207]; [];
   [57;60;61;63;64;65;66;71;73;74;75;116;117;123;207]; [57;60;61;63;64;65;66;71;73;74;75;116;117;123;207];
   [57;60;61;63;64;65;66;71;73;74;75;116;117;123;207]; [208]; []; []; []; []; [71;72;207]; []; []; [2;3;4;207];
   [116;117]; [116;117]; []; []; []; []; []; [208]; [208]; [208]; [54]; []; []; [174;175;176]; [116;117;171]; [85];
   []; [197]; []; []; []; []; [197]; []; [116;117;161]; [196]; []; [207]; [208]; []; []; []; []; []; []; [150]; [];
   []; []; []; []; []; []; [146]; []; [146]; []; []; []; []; [116;117;171;172]; [116;117]; [51;116;123]; []; [];
   [116;117;162]; []; []; []; []; []; []; [7;8;9;27;203;204]; []; [89;116;117]; [207]; []; [81]; []; []; []; [208];
   [208]; [208]; [208]; [31]; []; []; []; []; [70;71;72;207]; []; [2;3;4;207]; []; []; [116;117]; []; []; []; []; [];
   [173]; [175]; []; []; []; [164]; []; []; []; []; []; []; []; []; []; []; []; []; []; []; []; []; []; []; [];
   [37;56;57;60;61;63;64;65;66;71;73;74;75;116;117;123;207]; [193]; []; [195]; []; []; []; []; []; []; []; []; []; [];
   []; [190]; []; []; [7;8;9;27;204]; []; []; []; []; [116;117;171;172]; []; [178;179]; []; [];
   [37;56;57;60;61;63;64;65;66;71;73;74;75;116;117;123;207];
   [37;56;57;60;61;63;64;65;66;69;71;73;74;75;116;117;123;207]; []; []; []; []; [208]; []; []; [75;94;98;116;117;123];
   []; [208]; [116;117]; []; []; [116;117]; []; []; [175;177]; [116;117]; []; []; []; []; [200]; []; [200]; [200];
   [200]; [200]; [200]; [160]; [160]; [116;117;162]; [116;117;171;172]; [208]; []; []; []; []; []; [90];
   [116;117;171;172]; [116;117;171;172]; [191]; [116;117]; [37;56;57;60;61;63;64;65;66;71;73;74;75;116;117;123;207];
   [7;8;9;27;204]; []; []; [185]; [208]; []; [116;117]; []; []; []; []; []; []; []; []; []; []; [207]; []; []; []; [];
   []; []; []; []; []; []; []; []; []; [197]; [197]; []; []; []; []; []; []; []; []; []; []; []; []; []; [55]; []; [];
   []; []; []; []; []; []; []; [183]; []; [179]; []; [116;117;171;172]; []; []; []; [116;117]; []; [175]; []; []; [];
   [174;175;176]; []; []; []; []; []; []; []; []; []; []; [116;123]; [174;175;176]; [89;116;117]; [55]; [174;175;176];
   [37;56;57;60;61;63;64;65;66;71;73;74;75;116;117;123;207]; []; []; []; []; []; [208]; []; [51;116;123]; [173]; [];
   []; []; []; [173]; []; [174;175;176]; []; []; []; []; []; []; []; []; [115;116;117;118]; []; []; []; [207]; [];
   [116;117;162]; []; [57;60;61;63;64;65;66;71;73;74;75;116;117;123;207]; []; []; [208]; [208]; []; []; [] ].

(** For each state, how many reductions without a token can follow one another from it. *)
Definition potential_list : list Z :=
  [
   0; 0; 2; 3; 3; 3; 3; 3; 3; 3; 3; 3; 3; 3; 3; 3; 3; 3; 3; 3; 3; 10; 0; 6; 6; 6; 6; 6; 6; 0; 2; 1; 0; 0; 0; 0; 2; 0;
   0; 0; 0; 0; 1; 1; 1; 1; 1; 0; 0; 0; 0; 1; 0; 9; 0; 0; 0; 3; 5; 0; 1; 0; 0; 0; 4; 0; 1; 0; 0; 1; 1; 0; 0; 1; 0; 0;
   0; 0; 0; 0; 1; 0; 1; 1; 1; 0; 0; 10; 0; 11; 0; 0; 0; 0; 0; 0; 0; 0; 0; 0; 0; 0; 0; 0; 0; 0; 0; 0; 0; 0; 0; 0; 0; 0;
   0; 0; 0; 0; 0; 0; 0; 0; 0; 0; 0; 0; 0; 0; 0; 0; 0; 0; 0; 0; 0; 0; 0; 0; 0; 0; 0; 0; 0; 0; 0; 0; 0; 0; 0; 0; 0; 0;
   0; 0; 0; 0; 0; 0; 0; 0; 0; 0; 0; 0; 0; 0; 0; 0; 0; 0; 0; 0; 0; 0; 0; 0; 0; 0; 0; 0; 0; 0; 0; 0; 0; 0; 0; 0; 0; 0;
   0; 0; 0; 0; 0; 0; 0; 0; 0; 0; 0; 0; 0; 0; 0; 0; 0; 0; 0; 0; 0; 0; 0; 0; 0; 0; 0; 0; 0; 0; 0; 0; 0; 0; 0; 0; 0; 1;
   1; 1; 1; 0; 1; 1; 0; 0; 0; 0; 0; 1; 0; 0; 0; 0; 0; 0; 0; 0; 0; 0; 1; 8; 0; 0; 10; 11; 0; 6; 0; 0; 2; 0; 0; 4; 0; 0;
   7; 0; 8; 0; 8; 1; 0; 12; 0; 10; 10; 10; 10; 10; 0; 0; 0; 0; 0; 0; 0; 10; 10; 10; 10; 0; 0; 0; 0; 0; 0; 0; 0; 0; 0;
   11; 11; 0; 0; 0; 0; 0; 0; 0; 0; 0; 1; 0; 1; 1; 1; 1; 1; 1; 1; 1; 0; 0; 0; 0; 0; 0; 0; 2; 3; 3; 6; 1; 0; 9; 0; 0; 1;
   0; 0; 0; 1; 0; 0; 0; 0; 4; 4; 0; 0; 0; 0; 9; 0; 0; 0; 0; 0; 0; 0; 0; 0; 0; 0; 0; 0; 0; 0; 0; 0; 0; 0; 0; 0; 0; 0;
   0; 0; 0; 0; 0; 0; 0; 0; 0; 0; 0; 0; 0; 0; 0; 0; 0; 0; 0; 0; 0; 0; 0; 0; 0; 0; 0; 0; 0; 0; 0; 0; 0; 0; 0; 0; 0; 0;
   0; 0; 0; 0; 0; 0; 0; 0; 0; 0; 0; 0; 0; 0; 0; 0; 0; 0; 0; 0; 0; 0; 0; 0; 0; 0; 0; 0; 0; 0; 0; 0; 0; 0; 0; 0; 0; 0;
   0; 0; 0; 0; 0; 0; 0; 0; 0; 1; 0; 0; 0; 0; 0; 2; 0; 0; 0; 0; 0; 0; 0; 0; 1; 0; 0; 0; 0; 0; 0; 0; 0; 0; 0; 1; 1; 1;
   1; 1; 1; 1; 1; 0; 1; 1; 0; 0; 0; 1; 1; 0; 0; 0; 0; 0; 1; 0; 7; 0; 0; 0; 0; 0; 1; 3; 9; 1; 3; 0; 1; 0; 0; 0; 6; 0;
   0; 0; 7; 0; 8; 0; 0; 0; 0; 0; 0; 0; 0; 0; 0; 0; 0; 0; 0; 0; 0; 0; 0; 0; 0; 0; 0; 0; 0; 0; 0; 0; 0; 0; 0; 0; 0; 0;
   0; 0; 0; 0; 0; 0; 0; 0; 0; 0; 1; 1; 0; 1; 0; 0; 0; 0; 0; 0; 0; 0; 1; 0; 1; 0; 0; 0; 0; 0; 0; 0; 0; 0; 0; 0; 0; 0;
   0; 0; 1; 1; 0; 0; 0; 0; 0; 0; 0; 0; 0; 0; 0; 0; 0; 0; 1; 0; 0; 1; 0; 2; 0; 0; 0; 0; 0; 0; 0; 0; 0; 0; 0; 0; 0; 0;
   0; 0; 0; 8; 0; 9; 0; 10; 0; 4; 0; 0; 0; 0; 0; 0; 0; 0; 0; 1; 0; 0; 0; 3; 4; 0; 0; 0; 1; 0; 0; 2; 5; 3; 3; 3; 3; 7;
   6; 3; 3; 3; 3; 3; 0; 1; 1; 2; 2; 2; 2; 2; 0; 0; 0; 0; 0; 0; 0; 0; 0; 0; 2; 2; 1; 0; 1; 0; 0; 0; 0; 0; 0; 0; 0; 0;
   0; 1; 1; 1; 1; 1; 0; 0; 0; 0; 1; 0; 1; 0; 1; 0; 0; 0; 0; 0; 0; 0; 0; 0; 0; 0; 0; 0; 1; 0; 0; 0; 1; 1; 0; 0; 0; 0;
   0; 0; 0; 0; 0; 0; 2; 0; 0; 0; 0; 0; 0; 0; 0; 0; 2; 0; 0; 8; 11; 2; 0; 1; 0; 0; 0; 0; 0; 0; 0; 0; 0; 0; 0; 0; 0; 0;
   0; 0; 1; 9; 0; 1; 1; 0; 0; 0; 0; 0; 1; 0; 0; 0; 0; 0; 0; 0; 0; 0; 0; 0; 0; 0; 0; 0; 0; 0; 0; 0; 0; 0; 0; 0; 0; 1;
   5; 11; 0; 12; 1; 0; 0; 0; 0; 0; 1; 0; 0; 0; 0; 1; 2; 0; 0; 1; 0; 0; 0; 0; 0; 0; 0; 0; 3; 4; 0; 0; 5; 5; 0; 4; 0; 0;
   0; 0; 0; 0; 0; 0; 6; 6; 7; 0; 0; 0; 0; 0; 3; 0; 1; 0; 0; 0; 0; 0; 0; 0; 0; 0; 0; 2; 0; 0; 0; 1; 2; 3; 0; 0; 0; 0;
   0; 0; 0; 2; 1; 0; 0; 0; 0; 0; 0; 0; 0; 0; 1; 0; 0; 0; 0; 0; 0; 0; 1; 0; 0; 0; 0; 0; 1; 0; 0; 4; 0; 6; 0; 2; 2; 3;
   2; 2; 2; 0; 0; 1; 0; 1; 1; 1; 1; 0; 0; 1; 1; 0; 0; 0; 0; 1; 0; 0; 0; 0; 0; 0; 0; 0; 0; 0; 0; 0; 0; 0; 2; 0; 0; 0;
   0; 0; 1; 1; 0; 1; 0; 0; 0; 0; 0; 0; 0; 0; 0; 0; 0; 0; 0; 0; 1; 0; 1; 0; 0; 0; 0; 0; 0; 0; 7; 0; 0; 0; 0; 0; 4; 0;
   0; 0; 0; 1; 0; 1; 0; 0; 0; 0; 0; 0; 11; 0; 0; 0; 11; 0; 0; 0; 0; 0; 0; 0; 0; 0; 0; 0; 2; 0; 2; 0; 0; 0; 0; 0; 0; 0;
   5; 0; 0; 6; 0; 0; 2; 0; 0; 0; 4; 5; 0; 0; 4; 0; 4; 0; 0; 0; 0; 0; 0; 1; 2; 1; 0; 0; 0; 0; 0; 0; 0; 0; 2; 0; 0; 1;
   0; 0; 0; 1; 0; 0; 0; 0; 0; 0; 1; 0; 0; 0; 0; 0; 0; 0; 0; 0; 0; 0; 0; 0; 0; 0; 1; 0; 0; 0; 1; 0; 1; 0; 1; 1; 0; 0;
   0; 3; 0; 0; 1; 1; 2; 1; 1; 1; 0; 0; 0; 0; 0; 0; 0; 0; 0; 0; 0; 0; 0; 0; 0; 0; 0; 0; 1; 0; 1; 0; 1; 0; 0; 0; 0; 0;
   1; 0; 0; 0; 0; 0; 0; 0; 0; 1; 0; 0; 0; 0; 0; 0; 0; 0; 0; 0; 0; 0; 0; 1; 0; 0; 0; 0; 0; 0; 0; 0; 0; 0; 0; 0; 0; 0;
   0; 3; 0; 0; 0; 0; 0; 0; 0; 0; 0; 0; 0; 1; 2; 0; 1; 1; 0; 0; 1; 0; 1; 0; 0; 0; 0; 0; 0; 0; 0; 0; 1; 0; 0; 0; 4; 0;
   1; 0; 1; 2; 0; 1; 0; 1; 0; 1; 0; 0; 0; 0; 0; 0; 0; 0; 0; 2; 0; 1; 0; 0; 0; 0; 0; 0; 0; 1; 4; 1; 0; 0; 0; 0; 0; 0;
   0; 0; 0; 1; 0; 0; 1; 0; 0; 0; 0; 0; 0; 0; 0; 0; 0; 0; 0; 0; 0; 0; 0; 0; 0; 0; 1; 0; 0; 0; 0; 0; 2; 0; 2; 0; 0; 0;
   0; 0; 0; 0; 0; 0; 0; 0; 0; 0; 0; 0; 0; 0; 0; 0; 0; 0; 0; 0; 0; 0; 1; 0; 0; 0; 2; 0; 0; 0; 0; 0; 1; 0; 0; 0; 0; 0;
   0; 0; 0; 0; 0; 0; 0; 0; 0; 0; 0; 0; 0; 0; 0; 0; 2; 6; 0; 0; 0; 0; 0; 0; 1; 0; 0; 0; 0; 1; 0; 0; 2; 0; 3; 0; 1; 0;
   0; 0; 0; 1; 0; 1; 1; 0; 0; 0; 0; 0; 0; 0; 0; 0; 1; 0; 0; 0; 0; 0; 0; 0; 1; 0; 1; 0; 0; 0; 0; 0; 0; 0; 0; 0; 0; 0;
   0; 0; 0; 0; 0; 0; 0; 0; 0; 1; 1; 0; 0; 0; 0; 0; 0; 0; 1; 0; 0; 0; 0; 0; 6; 0; 0; 0; 0; 0; 0; 0; 0; 0; 1; 2; 0; 3;
   0; 1; 0; 0; 0; 0; 0; 0; 0; 0; 0; 2; 0; 0; 0; 0; 0; 0; 0; 1; 0; 0; 1; 0; 1; 0; 0; 0; 0; 0; 0; 0; 0; 0; 0; 0; 2; 3;
   0; 0; 1; 2; 2; 2; 0; 0; 0; 0; 0; 0; 0; 0; 0; 0; 0; 0; 0; 0; 0; 0; 1; 0; 0; 0; 0; 3; 0; 0; 0; 0; 0; 0; 0; 0; 0; 0;
   0; 0; 0; 0; 0; 0; 0; 0; 0; 0; 0; 0; 0; 0; 4; 0; 0; 1; 0; 0; 0; 1; 0; 2; 0; 1; 0; 0; 0; 0; 0; 0; 0; 0; 0; 6; 0; 0;
   0; 1; 0; 0; 0; 0; 0; 0; 0; 0; 0; 0; 0; 1; 1; 0; 0; 0; 0; 0; 0; 0; 0; 0; 0; 0; 0; 0; 3; 0; 0; 0; 0; 0; 0; 0; 0; 0;
   1; 0; 0; 0; 0; 0; 0; 0; 0; 0; 0; 0; 0; 0; 2; 0; 0; 0; 0; 0; 0; 0; 0; 0; 0; 0; 2; 0; 2; 1; 0; 0; 0; 0; 0; 0; 0; 0;
   0; 1; 0; 0; 0; 0; 1; 0; 1; 0; 0; 0; 0; 0; 0; 0; 0; 0; 0; 0; 0; 0; 0; 0; 0; 0; 0; 0; 0; 0; 0; 0; 0 ].

(** The tokens by internal number. *)
Definition token_list : list kind :=
  [
   KEnd; KEnd; KEnd; KEnd; (KTok "LEX_ERROR"); (KTok "UNION"); (KTok "SELECT"); (KTok "STREAM"); (KTok "INSERT");
   (KTok "UPDATE"); (KTok "DELETE"); (KTok "FROM"); (KTok "WHERE"); (KTok "GROUP"); (KTok "HAVING"); (KTok "ORDER");
   (KTok "BY"); (KTok "LIMIT"); (KTok "OFFSET"); (KTok "FOR"); (KTok "ALL"); (KTok "DISTINCT"); (KTok "AS"); (KTok
   "EXISTS"); (KTok "ASC"); (KTok "DESC"); (KTok "INTO"); (KTok "DUPLICATE"); (KTok "DEFAULT"); (KTok "SET"); (KTok
   "LOCK"); (KTok "KEYS"); (KTok "VALUES"); (KTok "LAST_INSERT_ID"); (KTok "NEXT"); (KTok "VALUE"); (KTok "SHARE");
   (KTok "MODE"); (KTok "SQL_NO_CACHE"); (KTok "SQL_CACHE"); (KTok "JOIN"); (KTok "STRAIGHT_JOIN"); (KTok "LEFT");
   (KTok "RIGHT"); (KTok "INNER"); (KTok "OUTER"); (KTok "CROSS"); (KTok "NATURAL"); (KTok "USE"); (KTok "FORCE");
   (KTok "ON"); (KTok "USING"); (KChar (ascii_of_nat 40)); (KChar (ascii_of_nat 44)); (KChar (ascii_of_nat 41)); (KTok
   "ID"); (KTok "HEX"); (KTok "STRING"); (KTok "INTEGRAL"); (KTok "FLOAT"); (KTok "HEXNUM"); (KTok "VALUE_ARG"); (KTok
   "LIST_ARG"); (KTok "COMMENT"); (KTok "COMMENT_KEYWORD"); (KTok "BIT_LITERAL"); (KTok "NULL"); (KTok "TRUE"); (KTok
   "FALSE"); (KTok "OFF"); (KTok "OR"); (KTok "AND"); (KTok "NOT"); (KChar (ascii_of_nat 33)); (KTok "BETWEEN"); (KTok
   "CASE"); (KTok "WHEN"); (KTok "THEN"); (KTok "ELSE"); (KTok "END"); (KChar (ascii_of_nat 61)); (KChar (ascii_of_nat
   60)); (KChar (ascii_of_nat 62)); (KTok "LE"); (KTok "GE"); (KTok "NE"); (KTok "NULL_SAFE_EQUAL"); (KTok "IS");
   (KTok "LIKE"); (KTok "REGEXP"); (KTok "IN"); (KChar (ascii_of_nat 124)); (KChar (ascii_of_nat 38)); (KTok
   "SHIFT_LEFT"); (KTok "SHIFT_RIGHT"); (KChar (ascii_of_nat 43)); (KChar (ascii_of_nat 45)); (KChar (ascii_of_nat
   42)); (KChar (ascii_of_nat 47)); (KTok "DIV"); (KChar (ascii_of_nat 37)); (KTok "MOD"); (KChar (ascii_of_nat 94));
   (KChar (ascii_of_nat 126)); (KTok "UNARY"); (KTok "COLLATE"); (KTok "BINARY"); (KTok "UNDERSCORE_BINARY"); (KTok
   "INTERVAL"); (KChar (ascii_of_nat 46)); (KTok "JSON_EXTRACT_OP"); (KTok "JSON_UNQUOTE_EXTRACT_OP"); (KTok
   "CREATE"); (KTok "ALTER"); (KTok "DROP"); (KTok "RENAME"); (KTok "ANALYZE"); (KTok "ADD"); (KTok "SCHEMA"); (KTok
   "TABLE"); (KTok "INDEX"); (KTok "VIEW"); (KTok "TO"); (KTok "IGNORE"); (KTok "IF"); (KTok "PRIMARY"); (KTok
   "COLUMN"); (KTok "CONSTRAINT"); (KTok "REFERENCES"); (KTok "SPATIAL"); (KTok "FULLTEXT"); (KTok "FOREIGN"); (KTok
   "KEY_BLOCK_SIZE"); (KTok "POLICY"); (KTok "UNIQUE"); (KTok "KEY"); (KTok "SHOW"); (KTok "DESCRIBE"); (KTok
   "EXPLAIN"); (KTok "DATE"); (KTok "ESCAPE"); (KTok "REPAIR"); (KTok "OPTIMIZE"); (KTok "TRUNCATE"); (KTok
   "MAXVALUE"); (KTok "PARTITION"); (KTok "REORGANIZE"); (KTok "LESS"); (KTok "THAN"); (KTok "PROCEDURE"); (KTok
   "TRIGGER"); (KTok "VINDEX"); (KTok "VINDEXES"); (KTok "STATUS"); (KTok "VARIABLES"); (KTok "RESTRICT"); (KTok
   "CASCADE"); (KTok "NO"); (KTok "ACTION"); (KTok "PERMISSIVE"); (KTok "RESTRICTIVE"); (KTok "PUBLIC"); (KTok
   "CURRENT_USER"); (KTok "SESSION_USER"); (KTok "PAD_INDEX"); (KTok "FILLFACTOR"); (KTok "IGNORE_DUP_KEY"); (KTok
   "STATISTICS_NORECOMPUTE"); (KTok "STATISTICS_INCREMENTAL"); (KTok "ALLOW_ROW_LOCKS"); (KTok "ALLOW_PAGE_LOCKS");
   (KTok "BEFORE"); (KTok "AFTER"); (KTok "EACH"); (KTok "ROW"); (KTok "BEGIN"); (KTok "START"); (KTok "TRANSACTION");
   (KTok "COMMIT"); (KTok "ROLLBACK"); (KTok "BIT"); (KTok "TINYINT"); (KTok "SMALLINT"); (KTok "SMALLSERIAL"); (KTok
   "MEDIUMINT"); (KTok "INT"); (KTok "INTEGER"); (KTok "SERIAL"); (KTok "BIGINT"); (KTok "BIGSERIAL"); (KTok
   "INTNUM"); (KTok "REAL"); (KTok "DOUBLE"); (KTok "PRECISION"); (KTok "FLOAT_TYPE"); (KTok "DECIMAL"); (KTok
   "NUMERIC"); (KTok "SMALLMONEY"); (KTok "MONEY"); (KTok "TIME"); (KTok "TIMESTAMP"); (KTok "DATETIME"); (KTok
   "YEAR"); (KTok "DATETIMEOFFSET"); (KTok "DATETIME2"); (KTok "SMALLDATETIME"); (KTok "CHAR"); (KTok "VARCHAR");
   (KTok "VARYING"); (KTok "BOOL"); (KTok "CHARACTER"); (KTok "VARBINARY"); (KTok "NCHAR"); (KTok "NVARCHAR"); (KTok
   "NTEXT"); (KTok "UUID"); (KTok "TEXT"); (KTok "TINYTEXT"); (KTok "MEDIUMTEXT"); (KTok "LONGTEXT"); (KTok "CITEXT");
   (KTok "BLOB"); (KTok "TINYBLOB"); (KTok "MEDIUMBLOB"); (KTok "LONGBLOB"); (KTok "JSON"); (KTok "JSONB"); (KTok
   "ENUM"); (KTok "GEOMETRY"); (KTok "POINT"); (KTok "LINESTRING"); (KTok "POLYGON"); (KTok "GEOMETRYCOLLECTION");
   (KTok "MULTIPOINT"); (KTok "MULTILINESTRING"); (KTok "MULTIPOLYGON"); (KTok "ARRAY"); (KTok "NOW"); (KTok
   "GETDATE"); (KTok "BPCHAR"); (KTok "NULLX"); (KTok "AUTO_INCREMENT"); (KTok "APPROXNUM"); (KTok "SIGNED"); (KTok
   "UNSIGNED"); (KTok "ZEROFILL"); (KTok "ZONE"); (KTok "AUTOINCREMENT"); (KTok "DATABASES"); (KTok "TABLES"); (KTok
   "VITESS_KEYSPACES"); (KTok "VITESS_SHARDS"); (KTok "VITESS_TABLETS"); (KTok "VSCHEMA_TABLES"); (KTok "EXTENDED");
   (KTok "FULL"); (KTok "PROCESSLIST"); (KTok "NAMES"); (KTok "CHARSET"); (KTok "GLOBAL"); (KTok "SESSION"); (KTok
   "ISOLATION"); (KTok "LEVEL"); (KTok "READ"); (KTok "WRITE"); (KTok "ONLY"); (KTok "REPEATABLE"); (KTok
   "COMMITTED"); (KTok "UNCOMMITTED"); (KTok "SERIALIZABLE"); (KTok "CURRENT_TIMESTAMP"); (KTok "DATABASE"); (KTok
   "CURRENT_DATE"); (KTok "CURRENT_TIME"); (KTok "LOCALTIME"); (KTok "LOCALTIMESTAMP"); (KTok "UTC_DATE"); (KTok
   "UTC_TIME"); (KTok "UTC_TIMESTAMP"); (KTok "REPLACE"); (KTok "CONVERT"); (KTok "CAST"); (KTok "SUBSTR"); (KTok
   "SUBSTRING"); (KTok "GROUP_CONCAT"); (KTok "SEPARATOR"); (KTok "INHERIT"); (KTok "MATCH"); (KTok "AGAINST"); (KTok
   "BOOLEAN"); (KTok "LANGUAGE"); (KTok "WITH"); (KTok "WITHOUT"); (KTok "PARSER"); (KTok "QUERY"); (KTok
   "EXPANSION"); (KTok "UNUSED"); (KTok "GENERATED"); (KTok "ALWAYS"); (KTok "IDENTITY"); (KTok "SEQUENCE"); (KTok
   "INCREMENT"); (KTok "MINVALUE"); (KTok "CACHE"); (KTok "CYCLE"); (KTok "OWNED"); (KTok "NONE"); (KTok "CLUSTERED");
   (KTok "NONCLUSTERED"); (KTok "REPLICATION"); (KTok "INCLUDE"); (KTok "TYPECAST"); (KTok "CHECK"); (KChar
   (ascii_of_nat 59)); (KChar (ascii_of_nat 91)); (KChar (ascii_of_nat 93)) ]%string.
Definition rhs_tree : tree (list Z) := Eval vm_compute in tree_of rhs_list.
Definition kernel_tree : tree (list (Z * Z)) := Eval vm_compute in tree_of kernel_list.
Definition closed_tree : tree (list Z) := Eval vm_compute in tree_of closure_list.
Definition potentials_tree : tree (Z) := Eval vm_compute in tree_of potential_list.
Definition known_tokens_tree : tree (kind) := Eval vm_compute in tree_of token_list.
Definition nonterminal_tree : tree ((string * value_type)) := Eval vm_compute in tree_of nonterminals.
