(** C101, SQL Server: a database is copied by its export. *)
From Coq Require Import String Ascii List ZArith Bool.
From Verif Require Import GoStr GoStrFacts Ast Generator SchemaText SchemaParse Parser Planner Catalog AdapterMssql ExportMssql SpecPlan SpecColumns SpecMysql SpecDatabase SpecPostgres
  SpecShown SpecShownMssql SpecMssql DemoReadMssql DemoConvergeMs Runner SpecRunner SpecTwoRuns DemoTwoRuns CommandLine SpecUrl SpecCommand SpecLine DemoCommand DemoLine
  SpecCopy SpecCopyMs DemoCopyMs ProofCopyMs.
Import ListNotations.
Local Open Scope string_scope.
Local Open Scope list_scope.

(** [c] has the tables of the database with the types sqldef exports, its views and its triggers.
    [ms_natural] holds of every database.  The full statement asks this of every database; it is
    false, see the refutations. *)
Theorem C101_sql_server_copy_partial ways replaceable step connect mc words conn file db d text :
  line_names Mssql mc words conn file -> found_at connect conn db ->
  mq_readable d = true -> mq_consistent d = true -> ms_dump (mq_server d) text ->
  forallb ms_natural (db_tables (mq_ideal d)) = true -> (forall g, In g (db_tables (mq_ideal d)) -> ms_kept ways g) ->
  forallb ms_filled (db_tables (mq_ideal d)) = true -> ms_refers_back [] (db_tables (mq_ideal d)) = true ->
  answers (on_machine mc db) file text "" -> serves step (on_machine mc db) ms_nothing ->
  (forall l out, parse_file Mssql text = Ok l -> plan Mssql l [] = Ok out -> does step (fun st => ms_checked ways replaceable (s_eff st)) out) ->
  opens (typed connect Mssql mc words) conn /\
  exists c, applied step (doings (typed connect Mssql mc words)) ms_nothing c /\ ms_copy_of c (mq_ideal d).
Proof. exact (fun Hl Ha R C D N K F B => ms_copy_typed ways replaceable d text R C D N K F B step connect mc words conn file db Hl Ha). Qed.
Print Assumptions C101_sql_server_copy_partial.

Example C101_sql_server_example :
  line_names Mssql (desk depot_text) once_typed (the_shop Mssql) "schema.sql" /\ found_at (fun _ => Some depot_world) (the_shop Mssql) depot_world /\
  mq_readable depot = true /\ mq_consistent depot = true /\ ms_dump (mq_server depot) depot_text /\
  forallb ms_natural (db_tables (mq_ideal depot)) = true /\ (forall g, In g (db_tables (mq_ideal depot)) -> ms_kept some_ways g) /\
  forallb ms_filled (db_tables (mq_ideal depot)) = true /\ ms_refers_back [] (db_tables (mq_ideal depot)) = true /\
  answers (on_machine (desk depot_text) depot_world) "schema.sql" depot_text "" /\ serves depot_step (on_machine (desk depot_text) depot_world) ms_nothing /\
  (forall l out, parse_file Mssql depot_text = Ok l -> plan Mssql l [] = Ok out -> does depot_step (fun st => ms_checked some_ways every_ms_view (s_eff st)) out) /\
  option_map (fun c => (map m_name (db_tables c), map (fun g => (length (m_columns g), length (m_indexes g), length (m_fks g))) (db_tables c), map vw_name (db_views c), map tr_name (db_triggers c)))
    (ms_checked_all some_ways every_ms_view depot_plan ms_nothing) =
    Some (["users"; "orders"; "old"], [(5, 1, 0); (3, 1, 2); (1, 0, 0)], ["people"; "gone"], ["log"]) /\
  option_map db_tables (ms_checked_all some_ways every_ms_view depot_plan ms_nothing) = Some (db_tables (mq_ideal depot)).
Proof.
  split; [apply once_names; discriminate|]. split; [intros a _; reflexivity|]. split; [vm_compute; reflexivity|]. split; [vm_compute; reflexivity|]. split; [exact depot_dump|].
  split; [vm_compute; reflexivity|]. split; [apply all_kept; vm_compute; reflexivity|]. split; [vm_compute; reflexivity|]. split; [vm_compute; reflexivity|].
  split; [apply desk_answers; refine (serving_answers _ _ [] [] [] _ _ _); reflexivity|]. split; [apply desk_serves, serving_serves|]. split; [exact depot_does|]. split; vm_compute; reflexivity.
Qed.

(** The catalogue says 0 of indexes and keys that were given no fill factor, the export says so
    too, and SQL Server refuses FILLFACTOR = 0. *)
Theorem C101_fill_factor_refuted : exists d text,
  mq_readable d = true /\ mq_consistent d = true /\ forallb ms_natural (db_tables (mq_ideal d)) = true /\ ms_refers_back [] (db_tables (mq_ideal d)) = true /\
  (forall g, In g (db_tables (mq_ideal d)) -> ms_kept some_ways g) /\ ms_dump (mq_server d) text /\
  exists l out, parse_file Mssql text = Ok l /\ plan Mssql l [] = Ok out /\ contains text "FILLFACTOR = 0" = true /\
    execute_all m_name (ms_create some_ways) (ms_alter some_ways) every_ms_view out ms_nothing <> None /\ ms_checked_all some_ways every_ms_view out ms_nothing = None.
Proof.
  exists (keyed 0), (ms_export (mq_server (keyed 0))). do 4 (split; [vm_compute; reflexivity|]). split; [apply all_kept; vm_compute; reflexivity|]. split; [apply ms_export_is|].
  eexists _, _. split; [vm_compute; reflexivity|]. split; [vm_compute; reflexivity|]. split; [vm_compute; reflexivity|]. split; [vm_compute; discriminate|vm_compute; reflexivity].
Qed.
Print Assumptions C101_fill_factor_refuted.

(** A table that refers to a later one is refused. *)
Theorem C101_sql_server_forward_reference_refuted : exists d text,
  mq_readable d = true /\ mq_consistent d = true /\ forallb ms_natural (db_tables (mq_ideal d)) = true /\ forallb ms_filled (db_tables (mq_ideal d)) = true /\
  (forall g, In g (db_tables (mq_ideal d)) -> ms_kept some_ways g) /\ ms_dump (mq_server d) text /\
  exists l out, parse_file Mssql text = Ok l /\ plan Mssql l [] = Ok out /\
    execute_all m_name (ms_create some_ways) (ms_alter some_ways) every_ms_view out ms_nothing <> None /\ ms_checked_all some_ways every_ms_view out ms_nothing = None.
Proof.
  exists offspring, (ms_export (mq_server offspring)). do 4 (split; [vm_compute; reflexivity|]). split; [apply all_kept; vm_compute; reflexivity|]. split; [apply ms_export_is|].
  eexists _, _. split; [vm_compute; reflexivity|]. split; [vm_compute; reflexivity|]. split; [vm_compute; discriminate|vm_compute; reflexivity].
Qed.
Print Assumptions C101_sql_server_forward_reference_refuted.

(** nvarchar columns of different lengths have one export: the copies are the same. *)
Theorem C101_sql_server_lengths_refuted : exists d d' text,
  mq_readable d = true /\ mq_readable d' = true /\ map (fun t => map mc_max_length (mst_columns t)) (mss_tables (mq_server d)) <> map (fun t => map mc_max_length (mst_columns t)) (mss_tables (mq_server d')) /\
  ms_dump (mq_server d) text /\ ms_dump (mq_server d') text.
Proof.
  exists (wide "80"), (wide "2"), (ms_export (mq_server (wide "80"))). split; [vm_compute; reflexivity|]. split; [vm_compute; reflexivity|]. split; [vm_compute; discriminate|].
  split; [apply ms_export_is|]. replace (ms_export (mq_server (wide "80"))) with (ms_export (mq_server (wide "2"))) by (vm_compute; reflexivity). apply ms_export_is.
Qed.
Print Assumptions C101_sql_server_lengths_refuted.
