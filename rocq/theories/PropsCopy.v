(** C101: a database is copied by its export.

    [mysqldef --export db > file; mysqldef copy --file=file] makes an empty database [copy] equal to
    [db].  The full statement asks this of every database of every product; it is false, see the
    refutations. *)
From Coq Require Import String Ascii List ZArith Bool.
From Verif Require Import GoStr GoStrFacts Ast Generator SchemaText SchemaParse Parser Planner Catalog CatalogMysql AdapterPostgres AdapterSqlite AdapterMysql
  SpecPlan SpecLayout SpecMysql SpecDatabase SpecPostgres SpecShown SpecShownMysql SpecConverge SpecConvergePg DemoPlan DemoConverge DemoConvergePg DemoReadBack DemoReadMysql
  Runner SpecRunner SpecTwoRuns DemoTwoRuns CommandLine SpecUrl SpecCommand SpecLine DemoCommand DemoLine SpecCopy SpecCopyPg SpecExport SpecSqlite ProofSqlite DemoSqlite DemoCopy ProofReadMyExport ProofCopy ProofCopyPg ProofCopyLite.
Import ListNotations.
Local Open Scope string_scope.
Local Open Scope list_scope.

(** MySQL.  The server executes a statement as [run_checked] says: not at all when it refers to a
    table that is not there.  [c] has the tables of the database, column for column and key for
    key, its views and its triggers. *)
Theorem C101_mysql_copy_partial step connect mc words conn file db d s text :
  line_names Mysql mc words conn file -> found_at connect conn db ->
  my_readable d = true -> my_consistent d = true -> catalogue_ok (my_ideal d) -> my_shows d s -> my_dump s = Some text ->
  refers_back [] (cat_tables (my_ideal d)) = true ->
  answers (on_machine mc db) file text "" -> serves step (on_machine mc db) nothing ->
  (forall l out, parse_file Mysql text = Ok l -> plan Mysql l [] = Ok out -> does step (fun st => run_checked (s_eff st)) out) ->
  opens (typed connect Mysql mc words) conn /\
  exists c, applied step (doings (typed connect Mysql mc words)) nothing c /\ copy_of c (my_ideal d).
Proof. exact (fun Hl Hf R C O S D B => copy_typed d s text R C O S D B step connect mc words conn file db Hl Hf). Qed.
Print Assumptions C101_mysql_copy_partial.

Example C101_mysql_example :
  line_names Mysql (desk warehouse_text) once_typed (the_shop Mysql) "schema.sql" /\ found_at (fun _ => Some copy_world) (the_shop Mysql) copy_world /\
  my_readable warehouse = true /\ my_consistent warehouse = true /\ catalogue_ok (my_ideal warehouse) /\ my_shows warehouse (server_of warehouse) /\
  my_dump (server_of warehouse) = Some warehouse_text /\ refers_back [] (cat_tables (my_ideal warehouse)) = true /\
  answers (on_machine (desk warehouse_text) copy_world) "schema.sql" warehouse_text "" /\ serves copy_step (on_machine (desk warehouse_text) copy_world) nothing /\
  (forall l out, parse_file Mysql warehouse_text = Ok l -> plan Mysql l [] = Ok out -> does copy_step (fun st => run_checked (s_eff st)) out) /\
  option_map (fun c => (map t_name (cat_tables c), map vw_name (cat_views c), map tr_name (cat_triggers c))) (run_all_checked warehouse_plan nothing) =
    Some (["users"; "posts"], ["people"], ["log"]) /\
  option_map cat_tables (run_all_checked warehouse_plan nothing) = Some (cat_tables (my_ideal warehouse)).
Proof.
  split; [apply once_names; discriminate|]. split; [intros a _; reflexivity|].
  split; [exact warehouse_readable|]. split; [exact warehouse_consistent|]. split; [exact warehouse_ok|]. split; [exact warehouse_shown|]. split; [exact warehouse_dump|].
  split; [vm_compute; reflexivity|]. split; [apply desk_answers; refine (serving_answers _ _ [] [] [] _ _ _); reflexivity|]. split; [apply desk_serves, serving_serves|].
  split; [exact warehouse_does|]. split; vm_compute; reflexivity.
Qed.

(** Tables are exported in the order of SHOW TABLES, by name, and created in that order: when an
    earlier one refers to a later one the copy is refused. *)
Theorem C101_forward_reference_refuted : exists d s text,
  my_readable d = true /\ my_consistent d = true /\ catalogue_ok (my_ideal d) /\ my_shows d s /\ my_dump s = Some text /\
  exists l out, parse_file Mysql text = Ok l /\ plan Mysql l [] = Ok out /\ SpecMysql.run_all out nothing <> None /\ run_all_checked out nothing = None.
Proof.
  exists family, (server_of family). eexists. split; [vm_compute; reflexivity|]. split; [vm_compute; reflexivity|]. split; [exact family_ok|]. split; [exact family_shown|].
  split; [vm_compute; reflexivity|]. eexists _, _. split; [vm_compute; reflexivity|]. split; [vm_compute; reflexivity|]. split; [vm_compute; discriminate|vm_compute; reflexivity].
Qed.
Print Assumptions C101_forward_reference_refuted.

(** PostgreSQL.  [c] has the tables of the database but none of their foreign keys; without foreign
    keys it is the database.  [pg_natural] holds of every database, [pg_unnamed] of those without
    UNIQUE constraints and with the CHECK names PostgreSQL chooses. *)
Theorem C101_postgres_copy_partial quoted castable replaceable step connect mc words conn file db d :
  line_names Postgres mc words conn file -> found_at connect conn db ->
  database_readable quoted d = true -> database_ok (ideal d) ->
  forallb pg_natural (db_tables (ideal d)) = true -> forallb pg_unnamed (db_tables (ideal d)) = true ->
  answers (on_machine mc db) file (dump_database (SpecShown.catalogue quoted d)) "" -> serves step (on_machine mc db) pg_nothing ->
  (forall l out, parse_file Postgres (dump_database (SpecShown.catalogue quoted d)) = Ok l -> plan Postgres l [] = Ok out ->
     does step (fun st => execute g_name pg_create (pg_alter castable) replaceable (s_eff st)) out) ->
  opens (typed connect Postgres mc words) conn /\
  exists c, applied step (doings (typed connect Postgres mc words)) pg_nothing c /\ unlinked_copy_of c (ideal d) /\
    ((forall g, In g (db_tables (ideal d)) -> g_fks g = []) -> pg_copy_of c (ideal d)).
Proof. exact (pg_copy_whole quoted castable replaceable step connect mc words conn file db d). Qed.
Print Assumptions C101_postgres_copy_partial.

Example C101_postgres_example :
  line_names Postgres (desk journal_text) once_typed (the_shop Postgres) "schema.sql" /\ found_at (fun _ => Some journal_world) (the_shop Postgres) journal_world /\
  database_readable is_quoted journal = true /\ database_ok (ideal journal) /\
  forallb pg_natural (db_tables (ideal journal)) = true /\ forallb pg_unnamed (db_tables (ideal journal)) = true /\
  answers (on_machine (desk journal_text) journal_world) "schema.sql" (dump_database (SpecShown.catalogue is_quoted journal)) "" /\
  serves journal_step (on_machine (desk journal_text) journal_world) pg_nothing /\
  (forall l out, parse_file Postgres (dump_database (SpecShown.catalogue is_quoted journal)) = Ok l -> plan Postgres l [] = Ok out ->
     does journal_step (fun st => execute g_name pg_create (pg_alter every_cast) every_view (s_eff st)) out) /\
  length journal_plan = 5 /\ map (fun g => length (g_fks g)) (db_tables (ideal journal)) = [0; 1].
Proof.
  rewrite journal_exports. split; [apply once_names; discriminate|]. split; [intros a _; reflexivity|].
  split; [exact journal_readable|]. split; [exact journal_ok|]. split; [vm_compute; reflexivity|]. split; [vm_compute; reflexivity|].
  split; [apply desk_answers; refine (serving_answers _ _ [] [] [] _ _ _); reflexivity|]. split; [apply desk_serves, serving_serves|]. split; [exact journal_does|]. split; vm_compute; reflexivity.
Qed.

(** The foreign keys of a database are exported as ALTER TABLE ... ADD CONSTRAINT, and
    these statements never come to anything: the copy has none, the run ends well, and so does
    every later one. *)
Theorem C101_postgres_foreign_keys_refuted : exists d there made,
  database_readable is_quoted d = true /\ database_ok (ideal d) /\
  (exists t, In t (db_tables (ideal d)) /\ g_fks t <> []) /\
  pg_made (pg_export d) = Ok (Some made) /\ (forall t, In t (db_tables made) -> g_fks t = []) /\
  database_readable is_quoted there = true /\ database_ok (ideal there) /\ made = ideal there /\ plan_text Postgres (pg_export d) (pg_export there) = Ok [].
Proof.
  exists (written [by_author]), (written []). eexists. split; [vm_compute; reflexivity|]. split; [apply written_ok; auto|].
  split; [eexists; split; [right; left; reflexivity|discriminate]|]. split; [vm_compute; reflexivity|].
  split; [intros t [<-|[<-|[]]]; reflexivity|]. split; [vm_compute; reflexivity|]. split; [apply written_ok; auto|]. split; vm_compute; reflexivity.
Qed.
Print Assumptions C101_postgres_foreign_keys_refuted.

(** A UNIQUE column is exported twice, as UNIQUE and as CREATE UNIQUE INDEX with the name of the
    index the first makes: the copy is refused. *)
Theorem C101_postgres_unique_refuted : exists d,
  database_readable is_quoted d = true /\ database_ok (ideal d) /\
  plan_text Postgres (pg_export d) "" =
    Ok ["CREATE TABLE public.users (" ++ nl ++ "    ""mail"" text UNIQUE" ++ nl ++ ")";
        "CREATE UNIQUE INDEX users_mail_key ON public.users USING btree (mail)"]%string /\
  pg_made (pg_export d) = Ok None.
Proof. exists mailing. split; [vm_compute; reflexivity|]. split; [exact mailing_ok|]. split; vm_compute; reflexivity. Qed.
Print Assumptions C101_postgres_unique_refuted.

(** SQLite.  [c] has the tables of the database, as sqldef reads them, and its views. *)
Theorem C101_sqlite_copy_partial step connect mc words path file db master text :
  line_names_file mc words path file -> connect (FileAddress path) = Some db ->
  lite_ok master -> (forall n t, holds master n (LTable t) -> settled SQLite3 [CreateTable "" t]) ->
  (forall r x, In r master -> object_row r -> lr_sql r = Some x -> ~ lite_hidden (lr_table r) /\ exists w, SpecLayout.says SQLite3 x w) ->
  lite_dump master = Some text ->
  answers (on_machine mc db) file text "" -> serves step (on_machine mc db) [] ->
  (forall l out, parse_file SQLite3 text = Ok l -> plan SQLite3 l [] = Ok out -> allows step executes out) ->
  opened (typed connect SQLite3 mc words) = [FileAddress path] /\
  exists c, applied step (doings (typed connect SQLite3 mc words)) [] c /\ lite_ok c /\
    (forall n t, holds c n (LTable t) <-> holds master n (LTable t)) /\
    (forall n e, holds c n (LView e) -> exists e', holds master n (LView e') /\ same_letters e e') /\
    (forall n e, holds master n (LView e) -> exists e', holds c n (LView e') /\ same_letters e' e).
Proof. exact (fun Hl Hf K S W D => lite_copy_typed master text K S W D step connect mc words path file db Hl Hf). Qed.
Print Assumptions C101_sqlite_copy_partial.

Example C101_sqlite_example :
  line_names_file (desk shop_text) lite_typed_line "shop.db" "schema.sql" /\ lite_ok shop /\
  (forall n t, holds shop n (LTable t) -> settled SQLite3 [CreateTable "" t]) /\
  (forall r x, In r shop -> object_row r -> lr_sql r = Some x -> ~ lite_hidden (lr_table r) /\ exists w, SpecLayout.says SQLite3 x w) /\
  lite_dump shop = Some shop_text /\
  answers (on_machine (desk shop_text) shop_copy_world) "schema.sql" shop_text "" /\ serves shop_copy_step (on_machine (desk shop_text) shop_copy_world) [] /\
  (forall l out, parse_file SQLite3 shop_text = Ok l -> plan SQLite3 l [] = Ok out -> allows shop_copy_step executes out) /\
  fold_left (fun a t => match a with Some m => shop_copy_step t m | None => None end) (map s_text shop_copy_plan) (Some []) =
    Some [row_table "users" x_users; row_table "logs" x_logs; row_view "names" x_names; row_view "people" x_people; row_view "old" x_old].
Proof.
  split; [apply lite_names|]. split; [exact shop_ok|]. split; [exact shop_settled|]. split; [exact shop_says|]. split; [exact shop_dump|].
  split; [apply desk_answers; refine (serving_answers _ _ [] [] [] _ _ _); reflexivity|]. split; [apply desk_serves, serving_serves|]. split; [exact shop_copy_allows|]. vm_compute. reflexivity.
Qed.

(** Indexes are not exported: the copy has none of those made by CREATE INDEX, whatever SQLite
    keeps of the plan. *)
Theorem C101_sqlite_indexes_refuted : exists master text i,
  lite_ok master /\ In i master /\ lr_type i = "index" /\ ~ lite_hidden (lr_name i) /\ lite_dump master = Some text /\
  exists l out, parse_file SQLite3 text = Ok l /\ plan SQLite3 l [] = Ok out /\
    (exists c, executes_all out [] c) /\ forall c, executes_all out [] c -> forall r, In r c -> lr_name r <> lr_name i.
Proof. exact index_lost. Qed.
Print Assumptions C101_sqlite_indexes_refuted.
