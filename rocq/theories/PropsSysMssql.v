(** Property C95: what sqldef asks the catalogue of SQL Server is enough to know the database. *)
From Coq Require Import String Ascii List ZArith Bool Permutation.
From Verif Require Import GoStr GoStrFacts Ast Generator Catalog AdapterPostgres AdapterMssql ExportMssql QueryMssql SchemaText SchemaParse Parser Planner SpecPlan SpecLayout SpecDatabase
  SpecShown SpecShownMssql SpecMssql SpecConvergeMs SpecSysMssql DemoReadBack DemoReadMssql DemoConvergeMs DemoSysMssql ProofMsSettle ProofSysDump ProofSysRun.
Import ListNotations.
Local Open Scope string_scope.
Local Open Scope list_scope.

(** [sys_tells s (mq_server d)]: the views of the sys schema, as far as sqldef reads them, say what
    they should of the database [d].  [sys_dump s r]: [r] is an outcome of [DumpDDLs]; the server
    gives the rows of an answer in any order.  [database_permuted]: the same tables, views and
    triggers, with the same columns, keys and foreign keys; the lists, and so the columns of a
    key, may be in another order.  The export never fails and is read as the database, in the
    order the server chose.  The full statement asks this of every database, and for the order
    of key columns; it is false, see below and C85. *)
Theorem C95_sql_server_catalogue_is_read_partial s d r :
  sys_tells s (mq_server d) -> mq_readable d = true -> sys_dump s r ->
  exists text e l, r = Ok text /\ database_permuted d e /\ parse_file Mssql text = Ok l /\ map without_text l = mq_definitions e.
Proof. exact (sys_dump_read s d r). Qed.
Print Assumptions C95_sql_server_catalogue_is_read_partial.

(** A plan is made for that database. *)
Theorem C95_plan_is_made_for_the_catalogue_partial s d desired l r texts :
  sys_tells s (mq_server d) -> mq_readable d = true -> parse_file Mssql desired = Ok l -> sys_dump s r ->
  exists current e, r = Ok current /\ database_permuted d e /\
    (plan_text Mssql desired current = Ok texts <-> exists out, plan Mssql l (mq_definitions e) = Ok out /\ texts = map s_text out).
Proof. exact (sys_plan s d desired l r texts). Qed.
Print Assumptions C95_plan_is_made_for_the_catalogue_partial.

Example C95_example :
  sys_tells shop_sys (mq_server shop) /\ mq_readable shop = true /\ sys_dump shop_sys (dump_first shop_sys) /\
  dump_first shop_sys = Ok (ms_export (mq_server shop)).
Proof. split; [exact shop_told|]. split; [exact shop_readable|]. split; [apply dump_first_is|]. vm_compute. reflexivity. Qed.

(** From the catalogue to the schema: with keys of one column the order does not matter.  The
    other conditions are those of C88. *)
Theorem C95_file_reaches_the_database_partial w replaceable s d desired l r :
  sys_tells s (mq_server d) -> mq_readable d = true -> short_keys d = true -> ms_names_given w -> ms_database_ok (mq_ideal d) ->
  parse_file Mssql desired = Ok l -> ms_schema w l -> ms_convertible w l (mq_ideal d) -> sys_dump s r ->
  exists current e, r = Ok current /\ database_permuted d e /\
    forall texts, plan_text Mssql desired current = Ok texts ->
      exists out db', texts = map s_text out /\ execute_all m_name (ms_create w) (ms_alter w) replaceable out (mq_ideal e) = Some db' /\
                      ms_db_reached l db' /\ ms_database_ok db'.
Proof. exact (sys_run w replaceable s d desired l r). Qed.
Print Assumptions C95_file_reaches_the_database_partial.

Theorem C95_next_run_is_empty_partial w s d desired l r :
  sys_tells s (mq_server d) -> mq_readable d = true -> short_keys d = true -> ms_database_ok (mq_ideal d) ->
  parse_file Mssql desired = Ok l -> ms_schema w l -> ms_db_reached l (mq_ideal d) -> sys_dump s r ->
  exists current, r = Ok current /\ plan_text Mssql desired current = Ok [].
Proof. exact (sys_settled w s d desired l r). Qed.
Print Assumptions C95_next_run_is_empty_partial.

Example C95_run_example :
  sys_tells there_sys (mq_server market_there) /\ mq_readable market_there = true /\ short_keys market_there = true /\ ms_names_given some_ways /\
  ms_database_ok (mq_ideal market_there) /\ parse_file Mssql market_small = Ok small_schema /\ ms_schema some_ways small_schema /\
  ms_convertible some_ways small_schema (mq_ideal market_there) /\ ms_db_reached small_schema (mq_ideal market_there) /\ sys_dump there_sys (dump_first there_sys).
Proof.
  split; [exact there_told|]. split; [exact there_readable|]. split; [vm_compute; reflexivity|]. split; [exact some_names|]. split; [exact there_ok|]. split; [exact small_parses|].
  split; [exact small_wanted|]. split; [exact there_convertible|]. split; [|apply dump_first_is].
  destruct (ms_converges some_ways every_ms_view small_schema (mq_ideal market_there) [] some_names small_wanted there_ok there_convertible) as (c & E & D & _); [vm_compute; reflexivity|].
  injection E as <-. exact D.
Qed.

(** The query for the columns of an index names no order (mssql.go 314-321): two exports of one
    database, made one after the other, may differ in the columns of its keys, and the one does
    not leave the database of the other alone. *)
Theorem C95_order_of_key_columns_refuted : exists s d first second,
  sys_tells s (mq_server d) /\ mq_readable d = true /\ sys_dump s (Ok first) /\ sys_dump s (Ok second) /\
  plan_text Mssql first second = Ok ["DROP INDEX [i] ON [dbo].[t]"; "CREATE UNIQUE NONCLUSTERED INDEX [i] ON dbo.t ([a], [b]) WITH ( PAD_INDEX = OFF, FILLFACTOR = 0, IGNORE_DUP_KEY = OFF, STATISTICS_NORECOMPUTE = OFF, STATISTICS_INCREMENTAL = OFF, ALLOW_ROW_LOCKS = ON, ALLOW_PAGE_LOCKS = ON )"].
Proof.
  exists pair_sys, pair_shop. eexists _, _. split; [exact pair_told|]. split; [vm_compute; reflexivity|]. split; [exact (dump_first_is pair_sys)|]. split; [exact pair_turned|]. vm_compute. reflexivity.
Qed.
Print Assumptions C95_order_of_key_columns_refuted.

(** A column with two checks is exported twice (203: LEFT JOIN). *)
Theorem C95_two_checks_refuted : exists text, sys_dump two_checks (Ok text) /\
  text = ("CREATE TABLE dbo.t (" ++ nl ++ "    a int NOT NULL CONSTRAINT [c] CHECK ([a]>(0))," ++ nl ++ "    a int NOT NULL CONSTRAINT [d] CHECK ([a]<(9))" ++ nl ++ ")")%string.
Proof. eexists. split; [exact (dump_first_is two_checks)|]. vm_compute. reflexivity. Qed.
Print Assumptions C95_two_checks_refuted.

(** A check of the table, which belongs to no column, is in no export. *)
Theorem C95_check_of_a_table_refuted : forall r, sys_dump one_check r ->
  r = Ok ("CREATE TABLE dbo.t (" ++ nl ++ "    a int NOT NULL" ++ nl ++ ")")%string /\ exists k, In k (sys_checks one_check) /\ sk_parent k = 1%Z /\ sk_definition k = Some "([a]<(9) AND [a]>(0))".
Proof. intros r D. apply lone_dump in D; [|vm_compute; reflexivity]. subst r. split; [vm_compute; reflexivity|]. eexists. split; [now left|split; reflexivity]. Qed.
Print Assumptions C95_check_of_a_table_refuted.

(** The schema of the table a foreign key refers to is lost (360: OBJECT_NAME). *)
Theorem C95_schema_of_references_refuted : exists text,
  sys_dump_table (foreign "dbo") "dbo.t" (Ok text) /\ sys_dump_table (foreign "sales") "dbo.t" (Ok text) /\
  text = ("CREATE TABLE dbo.t (" ++ nl ++ "    a int NOT NULL," ++ nl ++ "    CONSTRAINT [f] FOREIGN KEY ([a]) REFERENCES [u] ([id]) ON UPDATE NO ACTION ON DELETE NO ACTION" ++ nl ++ ")")%string.
Proof. eexists. split; [exact (dump_table_first_is _ _)|]. split; [exact (dump_table_first_is _ _)|]. vm_compute. reflexivity. Qed.
Print Assumptions C95_schema_of_references_refuted.

(** An index without statistics, and a default whose text the user may not see, stop the command
    with a nil pointer; an encrypted view stops it with an error. *)
Theorem C95_stops_refuted :
  (forall r, sys_dump without_statistics r -> r = Panic) /\ (forall r, sys_dump unseen_default r -> r = Panic) /\
  (forall r, sys_dump encrypted_view r -> exists e, r = Err e).
Proof.
  split; [|split]; intros r D; (apply lone_dump in D; [|vm_compute; reflexivity]); subst r; [vm_compute; reflexivity..|]. eexists. vm_compute. reflexivity.
Qed.
Print Assumptions C95_stops_refuted.
