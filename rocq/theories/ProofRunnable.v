(** Each statement of a plan runs; files with the words of an export. *)
From Coq Require Import String Ascii List ZArith Bool.
From Verif Require Import GoStr Ast Generator SchemaText SchemaParse Parser Planner SpecPlan SpecColumns SpecMysql SpecConverge ProofNoop SpecDatabase SpecPostgres SpecConvergePg ProofPgCheck ProofPgSettle
  SpecMssql SpecConvergeMs ProofMsCheck ProofMsSettle AdapterPostgres AdapterMysql AdapterMssql ExportMssql Catalog SpecShown SpecShownMysql SpecShownMssql ProofReadExport ProofMyEndToEnd ProofReadMsExport SpecLayout SpecWordsMysql SpecAccepted ProofAccepted.
Import ListNotations.
Local Open Scope string_scope.
Local Open Scope list_scope.

Theorem mysql_statements_run desired c out before st after :
  mysql_schema desired -> catalogue_ok c -> convertible desired c ->
  plan Mysql desired (dump c) = Ok out -> out = before ++ st :: after ->
  exists x y, run_all before c = Some x /\ run (s_eff st) x = Some y.
Proof. intros A B C P E. destruct (converges desired c out A B C P) as (c' & R & _). rewrite E in R. exact (mysql_each_runs before st after c c' R). Qed.

Theorem pg_statements_run castable replaceable desired db out before st after :
  pg_schema desired -> database_ok db -> pg_convertible castable replaceable desired db ->
  plan Postgres desired (pg_dump db) = Ok out -> out = before ++ st :: after ->
  exists x y, execute_all g_name pg_create (pg_alter castable) replaceable before db = Some x /\
              execute g_name pg_create (pg_alter castable) replaceable (s_eff st) x = Some y.
Proof. intros A B C P E. destruct (pg_converges castable replaceable desired db out A B C P) as (c' & R & _). rewrite E in R. exact (each_runs _ _ _ _ before st after db c' R). Qed.

Theorem ms_statements_run w replaceable desired db out before st after :
  ms_names_given w -> ms_schema w desired -> ms_database_ok db -> ms_convertible w desired db ->
  plan Mssql desired (ms_shown db) = Ok out -> out = before ++ st :: after ->
  exists x y, execute_all m_name (ms_create w) (ms_alter w) replaceable before db = Some x /\
              execute m_name (ms_create w) (ms_alter w) replaceable (s_eff st) x = Some y.
Proof. intros N A B C P E. destruct (ms_converges w replaceable desired db out N A B C P) as (c' & R & _). rewrite E in R. exact (each_runs _ _ _ _ before st after db c' R). Qed.

Theorem pg_file_read quoted d text : database_readable quoted d = true -> same_file Postgres text (dump_database (catalogue quoted d)) ->
  exists l, parse_file Postgres text = Ok l /\ map without_text l = pg_dump (ideal d).
Proof. intros R F. destruct (export_read quoted d R) as (l & P & E). destruct (same_file_read _ _ _ _ F P) as (l' & P' & E'). exists l'. split; [exact P'|]. now rewrite E'. Qed.
Theorem my_file_read d s current text : my_readable d = true -> my_shows d s -> my_dump s = Some current -> same_file Mysql text current ->
  exists l, parse_file Mysql text = Ok l /\ map without_text l = dump (my_ideal d).
Proof. intros R S D F. destruct (my_dump_read d s current R S D) as (l & P & E). destruct (same_file_read _ _ _ _ F P) as (l' & P' & E'). exists l'. split; [exact P'|]. now rewrite E'. Qed.
Theorem ms_file_read d current text : mq_readable d = true -> ms_dump (mq_server d) current -> same_file Mssql text current ->
  exists l, parse_file Mssql text = Ok l /\ map without_text l = mq_definitions d.
Proof. intros R D F. destruct (ms_dump_read d current R D) as (l & P & E). destruct (same_file_read _ _ _ _ F P) as (l' & P' & E'). exists l'. split; [exact P'|]. now rewrite E'. Qed.
