(** Property C102: databases brought to the same file agree, whatever they were before. *)
From Coq Require Import String Ascii List ZArith Bool.
From Verif Require Import GoStr Ast Generator Catalog SchemaText Parser Planner AdapterSqlite SpecPlan SpecColumns SpecOrder SpecMysql SpecDatabase SpecPostgres SpecMssql
  SpecConverge SpecConvergePg SpecConvergeMs SpecSqlite SpecAgree SpecShownMssql DemoPlan DemoConverge DemoConvergePg DemoConvergeMs DemoSqlite DemoAgree
  ProofPgCheck ProofAgree.
Import ListNotations.
Local Open Scope string_scope.
Local Open Scope list_scope.

(** The full statement: two databases to which the same file is applied end with the same tables, columns,
    keys, foreign keys, views and triggers, whatever earlier files left in them.  Proved of everything the
    file says ([my_agree]); what an earlier file said and this one leaves out may stay, see below.  Schemas
    and databases are those of C29. *)
Theorem C102_mysql_same_file_partial l a b outa outb :
  mysql_schema l -> catalogue_ok a -> catalogue_ok b -> convertible l a -> convertible l b ->
  plan Mysql l (dump a) = Ok outa -> plan Mysql l (dump b) = Ok outb ->
  exists a' b', run_all outa a = Some a' /\ run_all outb b = Some b' /\ my_agree l a' b' /\ my_agree l b' a'.
Proof. exact (my_same_file l a b outa outb). Qed.
Print Assumptions C102_mysql_same_file_partial.

(** The shop that has to be changed, and an empty database. *)
Example C102_mysql_example :
  mysql_schema DemoConverge.shop_desired /\ catalogue_ok DemoConverge.shop /\ catalogue_ok bare /\
  convertible DemoConverge.shop_desired DemoConverge.shop /\ convertible DemoConverge.shop_desired bare /\
  plan Mysql DemoConverge.shop_desired (dump DemoConverge.shop) = Ok (mysql_plan DemoConverge.shop_desired DemoConverge.shop) /\
  plan Mysql DemoConverge.shop_desired (dump bare) = Ok (mysql_plan DemoConverge.shop_desired bare) /\
  length (mysql_plan DemoConverge.shop_desired DemoConverge.shop) = 26 /\ length (mysql_plan DemoConverge.shop_desired bare) = 9.
Proof.
  split; [exact DemoConverge.shop_schema|]. split; [exact DemoConverge.shop_ok|]. split; [exact bare_ok|]. split; [exact DemoConverge.shop_convertible|]. split; [exact (bare_convertible _)|].
  repeat (split; [vm_compute; reflexivity|]); vm_compute; reflexivity.
Qed.

(** PostgreSQL; schemas and databases are those of C30.  Columns may be in another order. *)
Theorem C102_postgres_same_file_partial castable replaceable l a b outa outb :
  pg_schema l -> database_ok a -> database_ok b -> pg_convertible castable replaceable l a -> pg_convertible castable replaceable l b ->
  plan Postgres l (pg_dump a) = Ok outa -> plan Postgres l (pg_dump b) = Ok outb ->
  exists a' b', execute_all g_name pg_create (pg_alter castable) replaceable outa a = Some a' /\
    execute_all g_name pg_create (pg_alter castable) replaceable outb b = Some b' /\ pg_agree l a' b' /\ pg_agree l b' a'.
Proof. exact (pg_same_file castable replaceable l a b outa outb). Qed.
Print Assumptions C102_postgres_same_file_partial.

Example C102_postgres_example :
  pg_schema store_desired /\ database_ok store /\ database_ok pg_empty /\
  pg_convertible every_cast every_view store_desired store /\ pg_convertible every_cast every_view store_desired pg_empty /\
  plan Postgres store_desired (pg_dump store) = Ok (pg_plan store_desired store) /\
  plan Postgres store_desired (pg_dump pg_empty) = Ok (pg_plan store_desired pg_empty) /\
  length (pg_plan store_desired store) = 34 /\ length (pg_plan store_desired pg_empty) = 14.
Proof.
  split; [exact store_schema|]. split; [exact store_ok|]. split; [exact pg_empty_ok|]. split; [exact store_convertible|].
  split; [apply pg_convertible_b_ok; vm_compute; reflexivity|]. repeat (split; [vm_compute; reflexivity|]); vm_compute; reflexivity.
Qed.

(** SQL Server; schemas and databases are those of C88. *)
Theorem C102_sql_server_same_file_partial w replaceable l a b outa outb :
  ms_names_given w -> ms_schema w l -> ms_database_ok a -> ms_database_ok b -> ms_convertible w l a -> ms_convertible w l b ->
  plan Mssql l (ms_shown a) = Ok outa -> plan Mssql l (ms_shown b) = Ok outb ->
  exists a' b', execute_all m_name (ms_create w) (ms_alter w) replaceable outa a = Some a' /\
    execute_all m_name (ms_create w) (ms_alter w) replaceable outb b = Some b' /\ ms_agree l a' b' /\ ms_agree l b' a'.
Proof. exact (ms_same_file w replaceable l a b outa outb). Qed.
Print Assumptions C102_sql_server_same_file_partial.

Example C102_sql_server_example :
  ms_names_given some_ways /\ ms_schema some_ways market_schema /\ ms_database_ok (mq_ideal market) /\ ms_database_ok ms_none /\
  ms_convertible some_ways market_schema (mq_ideal market) /\ ms_convertible some_ways market_schema ms_none /\
  plan Mssql market_schema (ms_shown (mq_ideal market)) = Ok (ms_plan market_schema (mq_ideal market)) /\
  plan Mssql market_schema (ms_shown ms_none) = Ok (ms_plan market_schema ms_none) /\ ms_plan market_schema ms_none <> [].
Proof.
  split; [exact some_names|]. split; [exact market_wanted|]. split; [exact market_ok|]. split; [exact ms_none_ok|]. split; [exact market_convertible|].
  split; [exact (ms_none_convertible _)|]. split; [exact market_planned|]. split; [vm_compute; reflexivity|]. vm_compute. discriminate.
Qed.

(** SQLite; schemas and catalogues are those of C84. *)
Theorem C102_sqlite_same_file_partial file l a b ca cb :
  parse_file SQLite3 file = Ok l -> lite_schema l -> lite_ok a -> lite_ok b -> lite_convertible l a -> lite_convertible l b ->
  lite_dump a = Some ca -> lite_dump b = Some cb ->
  exists outa outb, plan_text SQLite3 file ca = Ok (map s_text outa) /\ plan_text SQLite3 file cb = Ok (map s_text outb) /\
    (exists a', executes_all outa a a') /\ (exists b', executes_all outb b b') /\
    forall a' b', executes_all outa a a' -> executes_all outb b b' -> lite_agree a' b'.
Proof. exact (lite_same_file file l a b ca cb). Qed.
Print Assumptions C102_sqlite_same_file_partial.

Example C102_sqlite_example : exists current,
  parse_file SQLite3 shop_file = Ok shop_parsed /\ lite_schema shop_parsed /\ lite_ok DemoSqlite.shop /\ lite_ok [] /\
  lite_convertible shop_parsed DemoSqlite.shop /\ lite_convertible shop_parsed [] /\
  lite_dump DemoSqlite.shop = Some current /\ lite_dump [] = Some "" /\ length shop_plan = 6.
Proof.
  eexists. split; [exact shop_parses|]. split; [exact DemoSqlite.shop_schema|]. split; [exact DemoSqlite.shop_ok|]. split; [exact no_rows_ok|].
  split; [exact DemoSqlite.shop_convertible|]. split; [exact (no_rows_convertible _)|]. split; [vm_compute; reflexivity|]. split; vm_compute; reflexivity.
Qed.

(** ** What keeps the full statement from holding *)

(** MySQL: prices with two and with four digits after the point both pass for decimal(10,2). *)
Theorem C102_scale_refuted : exists l a b t,
  mysql_schema l /\ catalogue_ok a /\ catalogue_ok b /\ tables_in l = [t] /\ plan Mysql l (dump a) = Ok [] /\ plan Mysql l (dump b) = Ok [] /\
  map (fun c => option_map v_raw (c_scale c)) (t_columns t) = [Some "2"] /\
  map (fun s => map (fun c => option_map v_raw (c_scale c)) (t_columns s)) (cat_tables a) = [[Some "2"]] /\
  map (fun s => map (fun c => option_map v_raw (c_scale c)) (t_columns s)) (cat_tables b) = [[Some "4"]].
Proof.
  exists price_file, (prices 2 "2"), (prices 4 "4"). eexists. split; [exact price_schema|]. split; [exact prices2_ok|]. split; [exact prices4_ok|].
  split; [reflexivity|]. repeat (split; [vm_compute; reflexivity|]); vm_compute; reflexivity.
Qed.
Print Assumptions C102_scale_refuted.

(** MySQL: a collation an earlier file gave stays when the file gives none any more. *)
Theorem C102_collation_stays_refuted : exists earlier l a b out,
  mysql_schema earlier /\ mysql_schema l /\
  plan Mysql earlier (dump bare) = Ok out /\ run_all out bare = Some a /\ plan Mysql l (dump a) = Ok [] /\
  run_all (mysql_plan l bare) bare = Some b /\ plan Mysql l (dump b) = Ok [] /\
  map (fun s => map c_collate (t_columns s)) (cat_tables a) = [["utf8mb4_bin"]] /\
  map (fun s => map c_collate (t_columns s)) (cat_tables b) = [[""]].
Proof.
  exists collated_file, plain_file, collated, uncollated. eexists. split; [exact collated_file_schema|]. split; [exact plain_file_schema|].
  repeat (split; [vm_compute; reflexivity|]); vm_compute; reflexivity.
Qed.
Print Assumptions C102_collation_stays_refuted.

(** PostgreSQL: a unique index the file does not declare stays, because it begins with a UNIQUE column. *)
Theorem C102_unique_index_stays_refuted : exists l a b,
  pg_schema l /\ database_ok a /\ database_ok b /\ plan Postgres l (pg_dump a) = Ok [] /\ plan Postgres l (pg_dump b) = Ok [] /\
  map (fun g => map i_name (g_indexes g)) (db_tables a) = [["t_a_key"]] /\
  map (fun g => map i_name (g_indexes g)) (db_tables b) = [["t_a_key"; "a_b"]].
Proof.
  exists unique_file, unique_one, unique_two. split; [exact unique_schema|]. split; [exact unique_one_ok|]. split; [exact unique_two_ok|].
  repeat (split; [vm_compute; reflexivity|]); vm_compute; reflexivity.
Qed.
Print Assumptions C102_unique_index_stays_refuted.

(** SQL Server: a fill factor an earlier file gave stays when the file gives none any more. *)
Theorem C102_fill_factor_stays_refuted : exists a b,
  ms_run (ms_plan (ms_parsed filled_file) ms_none) ms_none = Some a /\ ms_run (ms_plan (ms_parsed unfilled_file) ms_none) ms_none = Some b /\
  plan Mssql (ms_parsed unfilled_file) (ms_shown a) = Ok [] /\ plan Mssql (ms_parsed unfilled_file) (ms_shown b) = Ok [] /\
  fill_factors a = [Some "70"] /\ fill_factors b = [Some "0"].
Proof. eexists _, _. split; [vm_compute; reflexivity|]. split; [vm_compute; reflexivity|]. repeat (split; [vm_compute; reflexivity|]); vm_compute; reflexivity. Qed.
Print Assumptions C102_fill_factor_stays_refuted.
