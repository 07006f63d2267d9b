(** Property C98: a sound schema is planned, not refused. *)
From Coq Require Import String Ascii List ZArith Bool.
From Verif Require Import GoStr GoStrFacts Ast Generator SchemaText SchemaParse Parser Planner Catalog CatalogMysql AdapterPostgres AdapterSqlite AdapterMysql AdapterMssql ExportMssql
  SpecPlan SpecLayout SpecMysql SpecDatabase SpecPostgres SpecMssql SpecShown SpecShownMysql SpecShownMssql SpecConverge SpecConvergePg SpecConvergeMs SpecPlannable
  DemoPlan DemoConverge DemoConvergePg DemoReadBack DemoReadMysql DemoReadMssql DemoConvergeMs Runner SpecRunner SpecTwoRuns DemoTwoRuns ProofPlannable ProofPlannableRun.
Import ListNotations.
Local Open Scope string_scope.
Local Open Scope list_scope.

(** The full statement asks for a plan for every valid file and every database; what is missing
    is in the conditions of [plannable] and in the refutations below. *)
Theorem C98_sound_schemas_are_planned_partial m desired current :
  plannable m desired current -> exists out, plan m desired current = Ok out.
Proof. exact (plannable_planned m desired current). Qed.
Print Assumptions C98_sound_schemas_are_planned_partial.

Example C98_example :
  plannable Mysql (blog_desired "") (blog_current "") /\ plannable Postgres (blog_desired "public.") (blog_current "public.") /\
  plannable SQLite3 (blog_desired "") (blog_current "") /\ plannable Mssql (blog_desired "") (blog_current "") /\
  length (tables_in (blog_desired "")) = 3.
Proof. repeat (split; [apply plannable_b_ok; vm_compute; reflexivity|]). reflexivity. Qed.

Theorem C98_conditions_are_testable m desired current : plannable_b m desired current = true -> plannable m desired current.
Proof. exact (plannable_b_ok m desired current). Qed.
Print Assumptions C98_conditions_are_testable.

(** One run of the command on a plannable pair is applied and reaches the schema; unlike C96 it
    cannot be refused. *)
Theorem C98_run_of_mysqldef_is_applied_partial step w file d s current desired l :
  my_readable d = true -> my_shows d s -> my_dump s = Some current -> catalogue_ok (my_ideal d) ->
  parse_file Mysql desired = Ok l -> mysql_schema l -> convertible l (my_ideal d) -> plannable Mysql l (dump (my_ideal d)) ->
  answers w file desired current -> serves step w (my_ideal d) ->
  (forall out, plan Mysql l (dump (my_ideal d)) = Ok out -> does step (fun st => SpecMysql.run (s_eff st)) out) ->
  exists c, applied step (command w Mysql file) (my_ideal d) c /\ reached l c /\ catalogue_ok c.
Proof. exact (my_run step w file d s current desired l). Qed.
Print Assumptions C98_run_of_mysqldef_is_applied_partial.

Example C98_mysqldef_example : exists current,
  my_readable yard = true /\ my_shows yard (server_of yard) /\ my_dump (server_of yard) = Some current /\ catalogue_ok (my_ideal yard) /\
  parse_file Mysql yard_wants = Ok yard_parsed /\ mysql_schema yard_parsed /\ convertible yard_parsed (my_ideal yard) /\ plannable Mysql yard_parsed (dump (my_ideal yard)) /\
  answers (yard_world yard) "schema.sql" yard_wants current /\ serves yard_step (yard_world yard) (my_ideal yard) /\
  (forall out, plan Mysql yard_parsed (dump (my_ideal yard)) = Ok out -> does yard_step (fun st => SpecMysql.run (s_eff st)) out).
Proof.
  eexists. split; [exact yard_readable|]. split; [exact yard_shown|]. split; [exact (yard_dump yard eq_refl eq_refl yard_readable yard_shown)|]. split; [exact yard_ok|].
  split; [exact yard_parses|]. split; [exact yard_schema|]. split; [exact yard_convertible|]. split; [apply plannable_b_ok; vm_compute; reflexivity|].
  split; [apply serving_answers; reflexivity|]. split; [apply serving_serves|]. exact yard_does.
Qed.

Theorem C98_run_of_psqldef_is_applied_partial quoted castable replaceable step w file d desired l :
  database_readable quoted d = true -> database_ok (ideal d) ->
  parse_file Postgres desired = Ok l -> pg_schema l -> pg_convertible castable replaceable l (ideal d) -> plannable Postgres l (pg_dump (ideal d)) ->
  answers w file desired (dump_database (SpecShown.catalogue quoted d)) -> serves step w (ideal d) ->
  (forall out, plan Postgres l (pg_dump (ideal d)) = Ok out -> does step (fun st => execute g_name pg_create (pg_alter castable) replaceable (s_eff st)) out) ->
  exists c, applied step (command w Postgres file) (ideal d) c /\ db_reached l c /\ database_ok c.
Proof. exact (pg_run quoted castable replaceable step w file d desired l). Qed.
Print Assumptions C98_run_of_psqldef_is_applied_partial.

Example C98_psqldef_example :
  database_readable is_quoted club = true /\ database_ok (ideal club) /\
  parse_file Postgres club_wants = Ok club_parsed /\ pg_schema club_parsed /\ pg_convertible every_cast every_view club_parsed (ideal club) /\ plannable Postgres club_parsed (pg_dump (ideal club)) /\
  answers (club_world club) "schema.sql" club_wants (dump_database (SpecShown.catalogue is_quoted club)) /\ serves club_step (club_world club) (ideal club) /\
  (forall out, plan Postgres club_parsed (pg_dump (ideal club)) = Ok out -> does club_step (fun st => execute g_name pg_create (pg_alter every_cast) every_view (s_eff st)) out).
Proof.
  split; [exact club_readable|]. split; [exact club_ok|]. split; [exact club_parses|]. split; [exact club_schema|]. split; [exact club_convertible|].
  split; [apply plannable_b_ok; vm_compute; reflexivity|]. split; [apply club_answers; vm_compute; reflexivity|]. split; [apply serving_serves|]. exact club_does.
Qed.

Theorem C98_run_of_mssqldef_is_applied_partial ways replaceable step w file d current desired l :
  ms_names_given ways -> mq_readable d = true -> ms_dump (mq_server d) current -> ms_database_ok (mq_ideal d) ->
  parse_file Mssql desired = Ok l -> ms_schema ways l -> ms_convertible ways l (mq_ideal d) -> plannable Mssql l (mq_definitions d) ->
  answers w file desired current -> serves step w (mq_ideal d) ->
  (forall out, plan Mssql l (mq_definitions d) = Ok out -> does step (fun st => execute m_name (ms_create ways) (ms_alter ways) replaceable (s_eff st)) out) ->
  exists c, applied step (command w Mssql file) (mq_ideal d) c /\ ms_db_reached l c /\ ms_database_ok c.
Proof. exact (ms_run ways replaceable step w file d current desired l). Qed.
Print Assumptions C98_run_of_mssqldef_is_applied_partial.

Example C98_mssqldef_example :
  ms_names_given some_ways /\ mq_readable stall = true /\ ms_dump (mq_server stall) (ms_export (mq_server stall)) /\ ms_database_ok (mq_ideal stall) /\
  parse_file Mssql market_small = Ok small_schema /\ ms_schema some_ways small_schema /\ ms_convertible some_ways small_schema (mq_ideal stall) /\ plannable Mssql small_schema (mq_definitions stall) /\
  answers (stall_world stall) "schema.sql" market_small (ms_export (mq_server stall)) /\ serves stall_step (stall_world stall) (mq_ideal stall) /\
  (forall out, plan Mssql small_schema (mq_definitions stall) = Ok out -> does stall_step (fun st => execute m_name (ms_create some_ways) (ms_alter some_ways) every_ms_view (s_eff st)) out).
Proof.
  split; [exact some_names|]. split; [exact stall_readable|]. split; [exact (ms_export_is _)|]. split; [exact stall_ok|].
  split; [exact small_parses|]. split; [exact small_wanted|]. split; [exact stall_convertible|]. split; [apply plannable_b_ok; vm_compute; reflexivity|].
  split; [apply stall_answers; vm_compute; reflexivity|]. split; [apply serving_serves|]. exact stall_does.
Qed.

(** ** What keeps the full statement from holding *)

(** Valid files that are read and refused: a boolean default for a new column, in every dialect
    that has one; another column as the primary key. *)
Theorem C98_valid_files_are_refused_refuted : forall m desired current e,
  In (m, desired, current, e)
    [(Postgres, "CREATE TABLE t (a int, b boolean DEFAULT true)", "CREATE TABLE t (a int)", EUnsupportedDefault VBool);
     (Mysql, "CREATE TABLE t (a int, b boolean DEFAULT true)", "CREATE TABLE t (a int)", EUnsupportedDefault VBool);
     (SQLite3, "CREATE TABLE t (a int, b boolean DEFAULT false)", "CREATE TABLE t (a int)", EUnsupportedDefault VBool);
     (Mysql, "CREATE TABLE t (b int NOT NULL PRIMARY KEY)", "CREATE TABLE t (a int NOT NULL, PRIMARY KEY (a))", EPrimaryKeyRename "t" "b" "a");
     (Mssql, "CREATE TABLE t (b int NOT NULL PRIMARY KEY)", "CREATE TABLE t (a int NOT NULL, CONSTRAINT p PRIMARY KEY (a))", EPrimaryKeyRename "t" "b" "a")] ->
  (exists l, parse_file m desired = Ok l /\ well_formed l = true /\ length (tables_in l) = 1) /\ plan_text m desired current = Err e.
Proof.
  intros m desired current e H.
  repeat (destruct H as [H|H]; [inversion H; subst; split; [eexists; split; [vm_compute; reflexivity|split; vm_compute; reflexivity]|vm_compute; reflexivity]|]). destruct H.
Qed.
Print Assumptions C98_valid_files_are_refused_refuted.
