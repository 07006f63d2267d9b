(** Histories: schema files applied to a database one after the other.  Nothing is said of how the tool
    plans a file; the step of a dialect is the export, the plan and its execution on the ideal database. *)
From Coq Require Import String List ZArith Bool.
From Verif Require Import GoStr Ast Generator Catalog SchemaText Parser Planner AdapterSqlite SpecPlan SpecColumns SpecOrder SpecMysql SpecDatabase SpecPostgres SpecMssql
  SpecConverge SpecConvergePg SpecConvergeMs SpecSqlite.
Import ListNotations.

Inductive history {F D} (step : F -> D -> D -> Prop) : list F -> D -> D -> Prop :=
| hi_nil a : history step [] a a
| hi_cons f fs a b c : step f a b -> history step fs b c -> history step (f :: fs) a c.

(** A file in the domain of C29 is applied. *)
Definition my_step (l : list ddl) (a b : catalogue) : Prop :=
  mysql_schema l /\ convertible l a /\ exists out, plan Mysql l (dump a) = Ok out /\ run_all out a = Some b.

(** A file in the domain of C30. *)
Definition pg_step castable replaceable (l : list ddl) (a b : database pg_tab) : Prop :=
  pg_schema l /\ pg_convertible castable replaceable l a /\
  exists out, plan Postgres l (pg_dump a) = Ok out /\ execute_all g_name pg_create (pg_alter castable) replaceable out a = Some b.

(** A file in the domain of C88. *)
Definition ms_step w replaceable (l : list ddl) (a b : database ms_tab) : Prop :=
  ms_schema w l /\ ms_convertible w l a /\
  exists out, plan Mssql l (ms_shown a) = Ok out /\ execute_all m_name (ms_create w) (ms_alter w) replaceable out a = Some b.

(** A file in the domain of C84, from its text on. *)
Definition lite_step (file : string) (a b : list lite_row) : Prop :=
  exists l current definitions out, parse_file SQLite3 file = Ok l /\ lite_schema l /\ lite_convertible l a /\
    lite_dump a = Some current /\ parse_file SQLite3 current = Ok definitions /\ plan SQLite3 l definitions = Ok out /\ executes_all out a b.
