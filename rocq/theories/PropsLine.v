(** C100: the command line, typed once, brings the database it names to the schema of the file it
    names, and typed again does nothing.

    The words are those of C90, the runs those of C96 and C98, and the conditions on database and
    file are theirs.  The lines of the two runs may differ in order and style as long as they name
    the same database and file. *)
From Coq Require Import String Ascii List ZArith Bool.
From Verif Require Import GoStr GoStrFacts Ast Generator SchemaText SchemaParse Parser Planner Catalog CatalogMysql AdapterPostgres AdapterSqlite AdapterMysql AdapterMssql ExportMssql
  SpecPlan SpecLayout SpecMysql SpecDatabase SpecPostgres SpecMssql SpecShown SpecShownMysql SpecShownMssql SpecConverge SpecConvergePg SpecConvergeMs SpecSqlite SpecPlannable
  DemoConverge DemoConvergePg DemoReadBack DemoReadMysql DemoReadMssql DemoConvergeMs DemoSqlite Runner SpecRunner SpecTwoRuns DemoTwoRuns ProofPlannableRun
  CommandLine SpecUrl SpecCommand SpecLine DemoCommand DemoLine ProofLine.
Import ListNotations.
Local Open Scope string_scope.
Local Open Scope list_scope.

(** MySQL. *)
Theorem C100_mysqldef_line_partial step connect mc words conn file db d s current desired l :
  line_names Mysql mc words conn file -> found_at connect conn db ->
  my_readable d = true -> my_shows d s -> my_dump s = Some current -> catalogue_ok (my_ideal d) ->
  parse_file Mysql desired = Ok l -> mysql_schema l -> convertible l (my_ideal d) -> plannable Mysql l (dump (my_ideal d)) ->
  answers (on_machine mc db) file desired current -> serves step (on_machine mc db) (my_ideal d) ->
  (forall out, plan Mysql l (dump (my_ideal d)) = Ok out -> does step (fun st => SpecMysql.run (s_eff st)) out) ->
  opens (typed connect Mysql mc words) conn /\
  exists c, applied step (doings (typed connect Mysql mc words)) (my_ideal d) c /\ reached l c /\ catalogue_ok c /\
    forall connect2 mc2 words2 db2 d2 s2 current2, line_names Mysql mc2 words2 conn file -> found_at connect2 conn db2 ->
      catalogue_alike c (my_ideal d2) -> catalogue_ok (my_ideal d2) -> my_readable d2 = true -> my_shows d2 s2 -> my_dump s2 = Some current2 ->
      answers (on_machine mc2 db2) file desired current2 ->
      opens (typed connect2 Mysql mc2 words2) conn /\ idle (doings (typed connect2 Mysql mc2 words2)).
Proof. exact (my_typed step connect mc words conn file db d s current desired l). Qed.
Print Assumptions C100_mysqldef_line_partial.

Example C100_mysqldef_example : exists current current2 c,
  flat_map spell once_typed = ["--user=me"; "shop"; "--file=schema.sql"; "--port"; "3307"] /\
  line_names Mysql (desk yard_wants) once_typed (the_shop Mysql) "schema.sql" /\ found_at (fun _ => Some (yard_world yard)) (the_shop Mysql) (yard_world yard) /\
  my_readable yard = true /\ my_shows yard (server_of yard) /\ my_dump (server_of yard) = Some current /\ catalogue_ok (my_ideal yard) /\
  parse_file Mysql yard_wants = Ok yard_parsed /\ mysql_schema yard_parsed /\ convertible yard_parsed (my_ideal yard) /\ plannable Mysql yard_parsed (dump (my_ideal yard)) /\
  answers (on_machine (desk yard_wants) (yard_world yard)) "schema.sql" yard_wants current /\ serves yard_step (on_machine (desk yard_wants) (yard_world yard)) (my_ideal yard) /\
  (forall out, plan Mysql yard_parsed (dump (my_ideal yard)) = Ok out -> does yard_step (fun st => SpecMysql.run (s_eff st)) out) /\
  length yard_plan = 5 /\ SpecMysql.run_all yard_plan (my_ideal yard) = Some c /\
  line_names Mysql (desk yard_wants) again_typed (the_shop Mysql) "schema.sql" /\ found_at (fun _ => Some (yard_world yard_after)) (the_shop Mysql) (yard_world yard_after) /\
  catalogue_alike c (my_ideal yard_after) /\ catalogue_ok (my_ideal yard_after) /\ my_readable yard_after = true /\
  my_shows yard_after (server_of yard_after) /\ my_dump (server_of yard_after) = Some current2 /\ answers (on_machine (desk yard_wants) (yard_world yard_after)) "schema.sql" yard_wants current2.
Proof.
  destruct yard_left as (c & R & L). eexists _, _, c. split; [reflexivity|]. split; [apply once_names; discriminate|]. split; [intros a _; reflexivity|].
  split; [exact yard_readable|]. split; [exact yard_shown|]. split; [exact (yard_dump yard eq_refl eq_refl yard_readable yard_shown)|]. split; [exact yard_ok|].
  split; [exact yard_parses|]. split; [exact yard_schema|]. split; [exact yard_convertible|]. split; [apply plannable_b_ok; vm_compute; reflexivity|].
  split; [apply desk_answers, serving_answers; reflexivity|]. split; [apply desk_serves, serving_serves|]. split; [exact yard_does|]. split; [reflexivity|].
  split; [exact R|]. split; [apply again_names; discriminate|]. split; [intros a _; reflexivity|]. split; [exact L|]. split; [exact yard_after_ok|]. split; [exact yard_after_readable|]. split; [exact yard_after_shown|].
  split; [exact (yard_dump yard_after eq_refl eq_refl yard_after_readable yard_after_shown)|]. apply desk_answers, serving_answers. reflexivity.
Qed.

(** PostgreSQL. *)
Theorem C100_psqldef_line_partial quoted castable replaceable step connect mc words conn file db d desired l :
  line_names Postgres mc words conn file -> found_at connect conn db ->
  database_readable quoted d = true -> database_ok (ideal d) ->
  parse_file Postgres desired = Ok l -> pg_schema l -> pg_convertible castable replaceable l (ideal d) -> plannable Postgres l (pg_dump (ideal d)) ->
  answers (on_machine mc db) file desired (dump_database (SpecShown.catalogue quoted d)) -> serves step (on_machine mc db) (ideal d) ->
  (forall out, plan Postgres l (pg_dump (ideal d)) = Ok out -> does step (fun st => execute g_name pg_create (pg_alter castable) replaceable (s_eff st)) out) ->
  opens (typed connect Postgres mc words) conn /\
  exists c, applied step (doings (typed connect Postgres mc words)) (ideal d) c /\ db_reached l c /\ database_ok c /\
    forall connect2 mc2 words2 db2 d2, line_names Postgres mc2 words2 conn file -> found_at connect2 conn db2 ->
      database_alike pg_alike c (ideal d2) -> database_ok (ideal d2) -> database_readable quoted d2 = true ->
      answers (on_machine mc2 db2) file desired (dump_database (SpecShown.catalogue quoted d2)) ->
      opens (typed connect2 Postgres mc2 words2) conn /\ idle (doings (typed connect2 Postgres mc2 words2)).
Proof. exact (pg_typed quoted castable replaceable step connect mc words conn file db d desired l). Qed.
Print Assumptions C100_psqldef_line_partial.

Example C100_psqldef_example :
  line_names Postgres (desk club_wants) once_typed (the_shop Postgres) "schema.sql" /\ found_at (fun _ => Some (club_world club)) (the_shop Postgres) (club_world club) /\
  database_readable is_quoted club = true /\ database_ok (ideal club) /\
  parse_file Postgres club_wants = Ok club_parsed /\ pg_schema club_parsed /\ pg_convertible every_cast every_view club_parsed (ideal club) /\ plannable Postgres club_parsed (pg_dump (ideal club)) /\
  answers (on_machine (desk club_wants) (club_world club)) "schema.sql" club_wants (dump_database (SpecShown.catalogue is_quoted club)) /\ serves club_step (on_machine (desk club_wants) (club_world club)) (ideal club) /\
  (forall out, plan Postgres club_parsed (pg_dump (ideal club)) = Ok out -> does club_step (fun st => execute g_name pg_create (pg_alter every_cast) every_view (s_eff st)) out).
Proof.
  split; [apply once_names; discriminate|]. split; [intros a _; reflexivity|].
  split; [exact club_readable|]. split; [exact club_ok|]. split; [exact club_parses|]. split; [exact club_schema|]. split; [exact club_convertible|].
  split; [apply plannable_b_ok; vm_compute; reflexivity|]. split; [apply desk_answers, club_answers; vm_compute; reflexivity|]. split; [apply desk_serves, serving_serves|]. exact club_does.
Qed.

(** SQL Server. *)
Theorem C100_mssqldef_line_partial ways replaceable step connect mc words conn file db d current desired l :
  line_names Mssql mc words conn file -> found_at connect conn db ->
  ms_names_given ways -> mq_readable d = true -> ms_dump (mq_server d) current -> ms_database_ok (mq_ideal d) ->
  parse_file Mssql desired = Ok l -> ms_schema ways l -> ms_convertible ways l (mq_ideal d) -> plannable Mssql l (mq_definitions d) ->
  answers (on_machine mc db) file desired current -> serves step (on_machine mc db) (mq_ideal d) ->
  (forall out, plan Mssql l (mq_definitions d) = Ok out -> does step (fun st => execute m_name (ms_create ways) (ms_alter ways) replaceable (s_eff st)) out) ->
  opens (typed connect Mssql mc words) conn /\
  exists c, applied step (doings (typed connect Mssql mc words)) (mq_ideal d) c /\ ms_db_reached l c /\ ms_database_ok c /\
    forall connect2 mc2 words2 db2 d2 current2, line_names Mssql mc2 words2 conn file -> found_at connect2 conn db2 ->
      database_alike ms_alike c (mq_ideal d2) -> ms_database_ok (mq_ideal d2) -> mq_readable d2 = true -> ms_dump (mq_server d2) current2 ->
      answers (on_machine mc2 db2) file desired current2 ->
      opens (typed connect2 Mssql mc2 words2) conn /\ idle (doings (typed connect2 Mssql mc2 words2)).
Proof. exact (ms_typed ways replaceable step connect mc words conn file db d current desired l). Qed.
Print Assumptions C100_mssqldef_line_partial.

Example C100_mssqldef_example :
  line_names Mssql (desk market_small) once_typed (the_shop Mssql) "schema.sql" /\ found_at (fun _ => Some (stall_world stall)) (the_shop Mssql) (stall_world stall) /\
  ms_names_given some_ways /\ mq_readable stall = true /\ ms_dump (mq_server stall) (ms_export (mq_server stall)) /\ ms_database_ok (mq_ideal stall) /\
  parse_file Mssql market_small = Ok small_schema /\ ms_schema some_ways small_schema /\ ms_convertible some_ways small_schema (mq_ideal stall) /\ plannable Mssql small_schema (mq_definitions stall) /\
  answers (on_machine (desk market_small) (stall_world stall)) "schema.sql" market_small (ms_export (mq_server stall)) /\ serves stall_step (on_machine (desk market_small) (stall_world stall)) (mq_ideal stall) /\
  (forall out, plan Mssql small_schema (mq_definitions stall) = Ok out -> does stall_step (fun st => execute m_name (ms_create some_ways) (ms_alter some_ways) every_ms_view (s_eff st)) out).
Proof.
  split; [apply once_names; discriminate|]. split; [intros a _; reflexivity|].
  split; [exact some_names|]. split; [exact stall_readable|]. split; [exact (ms_export_is _)|]. split; [exact stall_ok|].
  split; [exact small_parses|]. split; [exact small_wanted|]. split; [exact stall_convertible|]. split; [apply plannable_b_ok; vm_compute; reflexivity|].
  split; [apply desk_answers, stall_answers; vm_compute; reflexivity|]. split; [apply desk_serves, serving_serves|]. exact stall_does.
Qed.

(** SQLite. *)
Theorem C100_sqlite3def_line_partial step connect mc words path file db master current desired l :
  line_names_file mc words path file -> connect (FileAddress path) = Some db ->
  parse_file SQLite3 desired = Ok l -> lite_schema l -> lite_ok master -> lite_convertible l master -> lite_dump master = Some current ->
  answers (on_machine mc db) file desired current -> serves step (on_machine mc db) master ->
  (forall out ds, parse_file SQLite3 current = Ok ds -> plan SQLite3 l ds = Ok out -> allows step executes out) ->
  opened (typed connect SQLite3 mc words) = [FileAddress path] /\
  exists c, applied step (doings (typed connect SQLite3 mc words)) master c /\ lite_reached l c /\ lite_ok c /\
    forall connect2 mc2 words2 db2 current2, line_names_file mc2 words2 path file -> connect2 (FileAddress path) = Some db2 ->
      lite_dump c = Some current2 -> answers (on_machine mc2 db2) file desired current2 ->
      opened (typed connect2 SQLite3 mc2 words2) = [FileAddress path] /\ idle (doings (typed connect2 SQLite3 mc2 words2)).
Proof. exact (lite_typed step connect mc words path file db master current desired l). Qed.
Print Assumptions C100_sqlite3def_line_partial.

Example C100_sqlite3def_example : exists current current2,
  flat_map spell lite_typed_line = ["--file=schema.sql"; "shop.db"] /\ line_names_file (desk shop_file) lite_typed_line "shop.db" "schema.sql" /\
  parse_file SQLite3 shop_file = Ok shop_parsed /\ lite_schema shop_parsed /\ lite_ok shop /\ lite_convertible shop_parsed shop /\ lite_dump shop = Some current /\
  answers (on_machine (desk shop_file) (lite_world shop)) "schema.sql" shop_file current /\ serves shop_step (on_machine (desk shop_file) (lite_world shop)) shop /\
  (forall out ds, parse_file SQLite3 current = Ok ds -> plan SQLite3 shop_parsed ds = Ok out -> allows shop_step executes out) /\
  length shop_plan = 6 /\ fold_left (fun a t => match a with Some m => shop_step t m | None => None end) (map s_text shop_plan) (Some shop) = Some shop_after /\
  lite_dump shop_after = Some current2 /\ answers (on_machine (desk shop_file) (lite_world shop_after)) "schema.sql" shop_file current2.
Proof.
  eexists _, _. split; [reflexivity|]. split; [apply lite_names|].
  split; [exact shop_parses|]. split; [exact shop_schema|]. split; [exact shop_ok|]. split; [exact shop_convertible|]. split; [vm_compute; reflexivity|].
  split; [apply desk_answers; refine (serving_answers _ _ _ _ _ _ _ _); vm_compute; reflexivity|]. split; [apply desk_serves, serving_serves|]. split; [apply shop_allows; vm_compute; reflexivity|].
  split; [reflexivity|]. split; [vm_compute; reflexivity|]. split; [vm_compute; reflexivity|]. apply desk_answers. refine (serving_answers _ _ _ _ _ _ _ _). vm_compute. reflexivity.
Qed.
