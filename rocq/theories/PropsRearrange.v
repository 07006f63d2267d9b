(** Property C103: the order of the statements of a schema file does not matter. *)
From Coq Require Import String Ascii List ZArith Bool Permutation.
From Verif Require Import GoStr Ast Generator Catalog SchemaText Parser Planner AdapterSqlite SpecPlan SpecColumns SpecOrder SpecMysql SpecDatabase SpecPostgres SpecMssql
  SpecConverge SpecConvergePg SpecConvergeMs SpecSqlite SpecAgree SpecShownMssql DemoPlan DemoConverge DemoConvergePg DemoConvergeMs DemoSqlite DemoAgree DemoRearrange
  SpecPlannable ProofPlannable ProofPlannableRun ProofPgCheck ProofRearrange.
Import ListNotations.
Local Open Scope string_scope.
Local Open Scope list_scope.

(** The full statement: however the statements of a file are arranged, the database ends the same, and once
    the file is applied a rearranged one changes nothing.  Proved for arrangements in which every statement
    about a table follows its CREATE TABLE ([well_formed]), under the conditions of C29. *)
Theorem C103_mysql_order_partial l l' a out out' :
  Permutation l l' -> well_formed l' = true -> mysql_schema l -> catalogue_ok a -> convertible l a ->
  plan Mysql l (dump a) = Ok out -> plan Mysql l' (dump a) = Ok out' ->
  exists b b', run_all out a = Some b /\ run_all out' a = Some b' /\ my_agree l b b' /\ my_agree l b' b /\
    plan Mysql l' (dump b) = Ok [] /\ plan Mysql l (dump b') = Ok [].
Proof. exact (my_rearranged l l' a out out'). Qed.
Print Assumptions C103_mysql_order_partial.

(** Triggers, views and a table come before the others. *)
Example C103_mysql_example : exists out',
  Permutation DemoConverge.shop_desired (rotated 3 DemoConverge.shop_desired) /\ well_formed (rotated 3 DemoConverge.shop_desired) = true /\
  mysql_schema DemoConverge.shop_desired /\ catalogue_ok DemoConverge.shop /\ convertible DemoConverge.shop_desired DemoConverge.shop /\
  plan Mysql DemoConverge.shop_desired (dump DemoConverge.shop) = Ok (mysql_plan DemoConverge.shop_desired DemoConverge.shop) /\
  plan Mysql (rotated 3 DemoConverge.shop_desired) (dump DemoConverge.shop) = Ok out' /\
  map s_text out' <> map s_text (mysql_plan DemoConverge.shop_desired DemoConverge.shop) /\ length out' = 26.
Proof.
  eexists. split; [exact (rotated_same 3 _)|]. split; [vm_compute; reflexivity|]. split; [exact DemoConverge.shop_schema|]. split; [exact DemoConverge.shop_ok|].
  split; [exact DemoConverge.shop_convertible|]. split; [vm_compute; reflexivity|]. split; [vm_compute; reflexivity|]. split; [vm_compute; discriminate|vm_compute; reflexivity].
Qed.

(** PostgreSQL, under the conditions of C30. *)
Theorem C103_postgres_order_partial castable replaceable l l' a out out' :
  Permutation l l' -> well_formed l' = true -> pg_schema l -> database_ok a -> pg_convertible castable replaceable l a ->
  plan Postgres l (pg_dump a) = Ok out -> plan Postgres l' (pg_dump a) = Ok out' ->
  exists b b', execute_all g_name pg_create (pg_alter castable) replaceable out a = Some b /\
    execute_all g_name pg_create (pg_alter castable) replaceable out' a = Some b' /\ pg_agree l b b' /\ pg_agree l b' b /\
    plan Postgres l' (pg_dump b) = Ok [] /\ plan Postgres l (pg_dump b') = Ok [].
Proof. exact (pg_rearranged castable replaceable l l' a out out'). Qed.
Print Assumptions C103_postgres_order_partial.

Example C103_postgres_example : exists out',
  Permutation store_desired (rotated 6 store_desired) /\ well_formed (rotated 6 store_desired) = true /\
  pg_schema store_desired /\ database_ok store /\ pg_convertible every_cast every_view store_desired store /\
  plan Postgres store_desired (pg_dump store) = Ok (pg_plan store_desired store) /\
  plan Postgres (rotated 6 store_desired) (pg_dump store) = Ok out' /\
  map s_text out' <> map s_text (pg_plan store_desired store) /\ length out' = 34.
Proof.
  eexists. split; [exact (rotated_same 6 _)|]. split; [vm_compute; reflexivity|]. split; [exact store_schema|]. split; [exact store_ok|].
  split; [exact store_convertible|]. split; [vm_compute; reflexivity|]. split; [vm_compute; reflexivity|]. split; [vm_compute; discriminate|vm_compute; reflexivity].
Qed.

(** SQL Server, under the conditions of C88. *)
Theorem C103_sql_server_order_partial w replaceable l l' a out out' :
  Permutation l l' -> well_formed l' = true -> ms_names_given w -> ms_schema w l -> ms_database_ok a -> ms_convertible w l a ->
  plan Mssql l (ms_shown a) = Ok out -> plan Mssql l' (ms_shown a) = Ok out' ->
  exists b b', execute_all m_name (ms_create w) (ms_alter w) replaceable out a = Some b /\
    execute_all m_name (ms_create w) (ms_alter w) replaceable out' a = Some b' /\ ms_agree l b b' /\ ms_agree l b' b /\
    plan Mssql l' (ms_shown b) = Ok [] /\ plan Mssql l (ms_shown b') = Ok [].
Proof. exact (ms_rearranged w replaceable l l' a out out'). Qed.
Print Assumptions C103_sql_server_order_partial.

Example C103_sql_server_example : exists out',
  Permutation market_schema (rotated 3 market_schema) /\ well_formed (rotated 3 market_schema) = true /\ ms_names_given some_ways /\
  ms_schema some_ways market_schema /\ ms_database_ok (mq_ideal market) /\ ms_convertible some_ways market_schema (mq_ideal market) /\
  plan Mssql market_schema (ms_shown (mq_ideal market)) = Ok (ms_plan market_schema (mq_ideal market)) /\
  plan Mssql (rotated 3 market_schema) (ms_shown (mq_ideal market)) = Ok out' /\ map s_text out' <> map s_text (ms_plan market_schema (mq_ideal market)).
Proof.
  eexists. split; [exact (rotated_same 3 _)|]. split; [vm_compute; reflexivity|]. split; [exact some_names|]. split; [exact market_wanted|]. split; [exact market_ok|].
  split; [exact market_convertible|]. split; [exact market_planned|]. split; [vm_compute; reflexivity|]. vm_compute. discriminate.
Qed.

(** SQLite, from the texts on, under the conditions of C84. *)
Theorem C103_sqlite_order_partial file file' l l' a current :
  Permutation l l' -> parse_file SQLite3 file = Ok l -> parse_file SQLite3 file' = Ok l' -> lite_schema l -> lite_ok a -> lite_convertible l a ->
  lite_dump a = Some current ->
  exists out out', plan_text SQLite3 file current = Ok (map s_text out) /\ plan_text SQLite3 file' current = Ok (map s_text out') /\
    (exists b, executes_all out a b) /\ (exists b', executes_all out' a b') /\
    (forall b b', executes_all out a b -> executes_all out' a b' -> lite_agree b b') /\
    (forall b, executes_all out a b -> exists next, lite_dump b = Some next /\ plan_text SQLite3 file' next = Ok []).
Proof. exact (lite_rearranged file file' l l' a current). Qed.
Print Assumptions C103_sqlite_order_partial.

Example C103_sqlite_example : exists current,
  Permutation shop_parsed (rotated 2 shop_parsed) /\ parse_file SQLite3 shop_file = Ok shop_parsed /\ parse_file SQLite3 shop_rotated = Ok (rotated 2 shop_parsed) /\
  lite_schema shop_parsed /\ lite_ok DemoSqlite.shop /\ lite_convertible shop_parsed DemoSqlite.shop /\ lite_dump DemoSqlite.shop = Some current.
Proof.
  eexists. split; [exact (rotated_same 2 _)|]. split; [exact shop_parses|]. split; [exact rotated_parses|]. split; [exact DemoSqlite.shop_schema|].
  split; [exact DemoSqlite.shop_ok|]. split; [exact DemoSqlite.shop_convertible|]. vm_compute. reflexivity.
Qed.

(** An index may not stand before its table: the file is refused, in every dialect. *)
Theorem C103_index_before_table_refuted m : exists l l' out e,
  parse_file m index_after = Ok l /\ parse_file m index_before = Ok l' /\ Permutation l l' /\ plan m l [] = Ok out /\ plan m l' [] = Err e.
Proof.
  destruct m; eexists _, _, _, _; (split; [vm_compute; reflexivity|]; split; [vm_compute; reflexivity|]; split; [apply perm_swap|]; split; vm_compute; reflexivity).
Qed.
Print Assumptions C103_index_before_table_refuted.

(** A rearranged file is planned whenever the first is one of those of C98, in every dialect. *)
Theorem C103_rearranged_files_are_planned_partial m l l' current :
  Permutation l l' -> well_formed l' = true -> plannable m l current -> exists out', plan m l' current = Ok out'.
Proof. exact (rearranged_planned m l l' current). Qed.
Print Assumptions C103_rearranged_files_are_planned_partial.

Example C103_rearranged_example :
  Permutation (blog_desired "") (rotated 4 (blog_desired "")) /\ well_formed (rotated 4 (blog_desired "")) = true /\
  plannable Mysql (blog_desired "") (blog_current "") /\ plannable SQLite3 (blog_desired "") (blog_current "") /\ plannable Mssql (blog_desired "") (blog_current "").
Proof.
  split; [exact (rotated_same 4 _)|]. split; [vm_compute; reflexivity|].
  split; [apply plannable_b_ok; vm_compute; reflexivity|]. split; apply plannable_b_ok; vm_compute; reflexivity.
Qed.
