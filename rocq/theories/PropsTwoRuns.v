(** C96: the command brings the database to the schema of the file and, run again, does nothing.

    One run of the command, from the answers of the catalogue to the state it leaves, and the run
    after it.  The server is any function from texts to effects that does on the texts of the plan
    what their effects say ([does], [allows]); see C49 and C89 for what the texts say. *)
From Coq Require Import String Ascii List ZArith Bool.
From Verif Require Import GoStr GoStrFacts Ast Generator SchemaText SchemaParse Parser Planner Catalog CatalogMysql AdapterPostgres AdapterSqlite AdapterMysql AdapterMssql ExportMssql
  SpecPlan SpecLayout SpecMysql SpecDatabase SpecPostgres SpecMssql SpecShown SpecShownMysql SpecShownMssql SpecConverge SpecConvergePg SpecConvergeMs SpecSqlite
  DemoConverge DemoConvergePg DemoReadBack DemoReadMysql DemoReadMssql DemoConvergeMs DemoSqlite Runner SpecRunner SpecTwoRuns DemoTwoRuns ProofTwoRunsAll.
Import ListNotations.
Local Open Scope string_scope.
Local Open Scope list_scope.

(** MySQL. *)
Theorem C96_two_runs_of_mysqldef_partial step w file d s current desired l :
  my_readable d = true -> my_shows d s -> my_dump s = Some current -> catalogue_ok (my_ideal d) ->
  parse_file Mysql desired = Ok l -> mysql_schema l -> convertible l (my_ideal d) ->
  answers w file desired current -> serves step w (my_ideal d) ->
  (forall out, plan Mysql l (dump (my_ideal d)) = Ok out -> does step (fun st => SpecMysql.run (s_eff st)) out) ->
  refused (command w Mysql file) \/
  exists c, applied step (command w Mysql file) (my_ideal d) c /\ reached l c /\ catalogue_ok c /\
    forall w2 d2 s2 current2, catalogue_alike c (my_ideal d2) -> catalogue_ok (my_ideal d2) -> my_readable d2 = true -> my_shows d2 s2 -> my_dump s2 = Some current2 ->
      answers w2 file desired current2 -> idle (command w2 Mysql file).
Proof. exact (my_two_runs step w file d s current desired l). Qed.
Print Assumptions C96_two_runs_of_mysqldef_partial.

Example C96_mysqldef_example : exists current current2 c,
  my_readable yard = true /\ my_shows yard (server_of yard) /\ my_dump (server_of yard) = Some current /\ catalogue_ok (my_ideal yard) /\
  parse_file Mysql yard_wants = Ok yard_parsed /\ mysql_schema yard_parsed /\ convertible yard_parsed (my_ideal yard) /\
  answers (yard_world yard) "schema.sql" yard_wants current /\ serves yard_step (yard_world yard) (my_ideal yard) /\
  (forall out, plan Mysql yard_parsed (dump (my_ideal yard)) = Ok out -> does yard_step (fun st => SpecMysql.run (s_eff st)) out) /\
  plan Mysql yard_parsed (dump (my_ideal yard)) = Ok yard_plan /\ length yard_plan = 5 /\
  SpecMysql.run_all yard_plan (my_ideal yard) = Some c /\ catalogue_alike c (my_ideal yard_after) /\ catalogue_ok (my_ideal yard_after) /\ my_readable yard_after = true /\
  my_shows yard_after (server_of yard_after) /\ my_dump (server_of yard_after) = Some current2 /\ answers (yard_world yard_after) "schema.sql" yard_wants current2.
Proof.
  destruct yard_left as (c & R & L). eexists _, _, c.
  split; [exact yard_readable|]. split; [exact yard_shown|]. split; [exact (yard_dump yard eq_refl eq_refl yard_readable yard_shown)|]. split; [exact yard_ok|].
  split; [exact yard_parses|]. split; [exact yard_schema|]. split; [exact yard_convertible|].
  split; [apply serving_answers; reflexivity|]. split; [apply serving_serves|]. split; [exact yard_does|]. split; [vm_compute; reflexivity|]. split; [reflexivity|].
  split; [exact R|]. split; [exact L|]. split; [exact yard_after_ok|]. split; [exact yard_after_readable|]. split; [exact yard_after_shown|].
  split; [exact (yard_dump yard_after eq_refl eq_refl yard_after_readable yard_after_shown)|]. apply serving_answers. reflexivity.
Qed.

(** PostgreSQL. *)
Theorem C96_two_runs_of_psqldef_partial quoted castable replaceable step w file d desired l :
  database_readable quoted d = true -> database_ok (ideal d) ->
  parse_file Postgres desired = Ok l -> pg_schema l -> pg_convertible castable replaceable l (ideal d) ->
  answers w file desired (dump_database (SpecShown.catalogue quoted d)) -> serves step w (ideal d) ->
  (forall out, plan Postgres l (pg_dump (ideal d)) = Ok out -> does step (fun st => execute g_name pg_create (pg_alter castable) replaceable (s_eff st)) out) ->
  refused (command w Postgres file) \/
  exists c, applied step (command w Postgres file) (ideal d) c /\ db_reached l c /\ database_ok c /\
    forall w2 d2, database_alike pg_alike c (ideal d2) -> database_ok (ideal d2) -> database_readable quoted d2 = true ->
      answers w2 file desired (dump_database (SpecShown.catalogue quoted d2)) -> idle (command w2 Postgres file).
Proof. exact (pg_two_runs quoted castable replaceable step w file d desired l). Qed.
Print Assumptions C96_two_runs_of_psqldef_partial.

Example C96_psqldef_example : exists c,
  database_readable is_quoted club = true /\ database_ok (ideal club) /\
  parse_file Postgres club_wants = Ok club_parsed /\ pg_schema club_parsed /\ pg_convertible every_cast every_view club_parsed (ideal club) /\
  answers (club_world club) "schema.sql" club_wants (dump_database (SpecShown.catalogue is_quoted club)) /\ serves club_step (club_world club) (ideal club) /\
  (forall out, plan Postgres club_parsed (pg_dump (ideal club)) = Ok out -> does club_step (fun st => execute g_name pg_create (pg_alter every_cast) every_view (s_eff st)) out) /\
  plan Postgres club_parsed (pg_dump (ideal club)) = Ok club_plan /\ length club_plan = 6 /\
  execute_all g_name pg_create (pg_alter every_cast) every_view club_plan (ideal club) = Some c /\ database_alike pg_alike c (ideal club_after) /\
  database_ok (ideal club_after) /\ database_readable is_quoted club_after = true /\
  answers (club_world club_after) "schema.sql" club_wants (dump_database (SpecShown.catalogue is_quoted club_after)).
Proof.
  destruct club_left as (c & R & L). exists c. split; [exact club_readable|]. split; [exact club_ok|]. split; [exact club_parses|]. split; [exact club_schema|]. split; [exact club_convertible|].
  split; [apply club_answers; vm_compute; reflexivity|]. split; [apply serving_serves|]. split; [exact club_does|]. split; [vm_compute; reflexivity|]. split; [reflexivity|].
  split; [exact R|]. split; [exact L|]. split; [exact club_after_ok|]. split; [exact club_after_readable|]. apply club_answers. vm_compute. reflexivity.
Qed.

(** SQL Server. *)
Theorem C96_two_runs_of_mssqldef_partial ways replaceable step w file d current desired l :
  ms_names_given ways -> mq_readable d = true -> ms_dump (mq_server d) current -> ms_database_ok (mq_ideal d) ->
  parse_file Mssql desired = Ok l -> ms_schema ways l -> ms_convertible ways l (mq_ideal d) ->
  answers w file desired current -> serves step w (mq_ideal d) ->
  (forall out, plan Mssql l (mq_definitions d) = Ok out -> does step (fun st => execute m_name (ms_create ways) (ms_alter ways) replaceable (s_eff st)) out) ->
  refused (command w Mssql file) \/
  exists c, applied step (command w Mssql file) (mq_ideal d) c /\ ms_db_reached l c /\ ms_database_ok c /\
    forall w2 d2 current2, database_alike ms_alike c (mq_ideal d2) -> ms_database_ok (mq_ideal d2) -> mq_readable d2 = true -> ms_dump (mq_server d2) current2 ->
      answers w2 file desired current2 -> idle (command w2 Mssql file).
Proof. exact (ms_two_runs ways replaceable step w file d current desired l). Qed.
Print Assumptions C96_two_runs_of_mssqldef_partial.

Example C96_mssqldef_example : exists c,
  ms_names_given some_ways /\ mq_readable stall = true /\ ms_dump (mq_server stall) (ms_export (mq_server stall)) /\ ms_database_ok (mq_ideal stall) /\
  parse_file Mssql market_small = Ok small_schema /\ ms_schema some_ways small_schema /\ ms_convertible some_ways small_schema (mq_ideal stall) /\
  answers (stall_world stall) "schema.sql" market_small (ms_export (mq_server stall)) /\ serves stall_step (stall_world stall) (mq_ideal stall) /\
  (forall out, plan Mssql small_schema (mq_definitions stall) = Ok out -> does stall_step (fun st => execute m_name (ms_create some_ways) (ms_alter some_ways) every_ms_view (s_eff st)) out) /\
  plan Mssql small_schema (mq_definitions stall) = Ok stall_plan /\
  map s_text stall_plan = ["CREATE INDEX by_name ON users (name DESC)"; "DROP INDEX [by_nick] ON [dbo].[users]"; "ALTER TABLE [dbo].[users] DROP COLUMN [nick]"] /\
  execute_all m_name (ms_create some_ways) (ms_alter some_ways) every_ms_view stall_plan (mq_ideal stall) = Some c /\ database_alike ms_alike c (mq_ideal market_there) /\
  ms_database_ok (mq_ideal market_there) /\ mq_readable market_there = true /\ ms_dump (mq_server market_there) (ms_export (mq_server market_there)) /\
  answers (stall_world market_there) "schema.sql" market_small (ms_export (mq_server market_there)).
Proof.
  destruct stall_left as (c & R & L). exists c. split; [exact some_names|]. split; [exact stall_readable|]. split; [exact (ms_export_is _)|]. split; [exact stall_ok|].
  split; [exact small_parses|]. split; [exact small_wanted|]. split; [exact stall_convertible|]. split; [apply stall_answers; vm_compute; reflexivity|]. split; [apply serving_serves|].
  split; [exact stall_does|]. split; [vm_compute; reflexivity|]. split; [reflexivity|]. split; [exact R|]. split; [exact L|]. split; [exact there_ok|]. split; [exact there_readable|].
  split; [exact (ms_export_is _)|]. apply stall_answers. vm_compute. reflexivity.
Qed.

(** SQLite, where the plan is always made and the next export is that of the catalogue left. *)
Theorem C96_two_runs_of_sqlite3def_partial step w file master current desired l :
  parse_file SQLite3 desired = Ok l -> lite_schema l -> lite_ok master -> lite_convertible l master -> lite_dump master = Some current ->
  answers w file desired current -> serves step w master ->
  (forall out ds, parse_file SQLite3 current = Ok ds -> plan SQLite3 l ds = Ok out -> allows step executes out) ->
  exists c, applied step (command w SQLite3 file) master c /\ lite_reached l c /\ lite_ok c /\
    forall w2 current2, lite_dump c = Some current2 -> answers w2 file desired current2 -> idle (command w2 SQLite3 file).
Proof. exact (lite_two_runs step w file master current desired l). Qed.
Print Assumptions C96_two_runs_of_sqlite3def_partial.

Example C96_sqlite3def_example : exists current current2,
  parse_file SQLite3 shop_file = Ok shop_parsed /\ lite_schema shop_parsed /\ lite_ok shop /\ lite_convertible shop_parsed shop /\ lite_dump shop = Some current /\
  answers (lite_world shop) "schema.sql" shop_file current /\ serves shop_step (lite_world shop) shop /\
  (forall out ds, parse_file SQLite3 current = Ok ds -> plan SQLite3 shop_parsed ds = Ok out -> allows shop_step executes out) /\
  length shop_plan = 6 /\ fold_left (fun a t => match a with Some m => shop_step t m | None => None end) (map s_text shop_plan) (Some shop) = Some shop_after /\
  lite_dump shop_after = Some current2 /\ answers (lite_world shop_after) "schema.sql" shop_file current2.
Proof.
  eexists _, _. split; [exact shop_parses|]. split; [exact shop_schema|]. split; [exact shop_ok|]. split; [exact shop_convertible|]. split; [vm_compute; reflexivity|].
  split; [refine (serving_answers _ _ _ _ _ _ _ _); vm_compute; reflexivity|]. split; [apply serving_serves|]. split; [apply shop_allows; vm_compute; reflexivity|].
  split; [reflexivity|]. split; [vm_compute; reflexivity|]. split; [vm_compute; reflexivity|]. refine (serving_answers _ _ _ _ _ _ _ _). vm_compute. reflexivity.
Qed.
