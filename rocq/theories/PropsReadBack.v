(** Properties C77 to C79: what sqldef reads in the export of a PostgreSQL database is that
    database, an export applied to its own database changes nothing, and a schema file applied to
    a database reaches the schema, from the texts on. *)
From Coq Require Import String Ascii List ZArith Bool.
From Verif Require Import GoStr Ast Generator Catalog AdapterPostgres SchemaText SchemaParse Parser Planner SpecPlan SpecLayout SpecMysql SpecDatabase SpecPostgres
  SpecShown SpecConvergePg DemoConvergePg DemoReadBack ProofPgSettle ProofReadExport ProofUntold ProofEndToEnd.
Import ListNotations.
Local Open Scope string_scope.
Local Open Scope list_scope.

(** ** C77: the export is read back as the database *)

(** [database_readable] says which databases: names without capitals or blanks except where
    PostgreSQL quotes them, types and expressions of SpecShown.  The full statement asks this of
    every database; it is false, see below. *)
Theorem C77_export_is_read_back_partial quoted d :
  database_readable quoted d = true ->
  exists l, parse_file Postgres (dump_database (catalogue quoted d)) = Ok l /\ map without_text l = pg_dump (ideal d).
Proof. exact (export_read quoted d). Qed.
Print Assumptions C77_export_is_read_back_partial.

Example C77_example :
  database_readable is_quoted blog = true /\
  last (split_statements (dump_database (catalogue is_quoted blog))) "" =
    "CREATE VIEW public.adults AS SELECT users.id, users.mail FROM users WHERE (users.age > 20)" /\
  length (split_statements (dump_database (catalogue is_quoted blog))) = length (pg_dump (ideal blog)) /\
  last (pg_dump (ideal blog)) (DView (mkView "" "" "")) = DView (mkView "" "adults" "select users.id, users.mail from users where (users.age > 20)").
Proof. split; [exact blog_readable|]. split; [|split]; vm_compute; reflexivity. Qed.

(** Neither the way a statement of the database was spelled nor anything else of its text is seen
    by the planner. *)
Theorem C77_texts_are_not_seen m desired current out :
  plan m desired (map without_text current) = Ok out <-> plan m desired current = Ok out.
Proof. exact (plan_untold m desired current out). Qed.
Print Assumptions C77_texts_are_not_seen.

Example C77_texts_example :
  exists out, plan Postgres store_desired (map without_text (pg_dump store)) = Ok out /\ length out = 34.
Proof. eexists. split; vm_compute; reflexivity. Qed.

(** One column of any of these types, and no export of the database is read. *)
Theorem C77_types_refuted : forall ty,
  In ty ["bytea"; "xml"; "inet"; "cidr"; "macaddr"; "interval"; "tsvector"; "int4range"; "oid"; "bit varying"] ->
  fails (parse_file Postgres (dump_database (typed_column ty None))) = true.
Proof. intros ty H. repeat (destruct H as [<-|H]; [vm_compute; reflexivity|]). destruct H. Qed.
Print Assumptions C77_types_refuted.

(** So with a negative default, a date, or a default of NULL. *)
Theorem C77_defaults_refuted : forall ty default,
  In (ty, default) [("integer", "'-5'::integer"); ("date", "'2020-01-01'::date"); ("character varying", "NULL::character varying")] ->
  fails (parse_file Postgres (dump_database (typed_column ty (Some default)))) = true.
Proof. intros ty x H. repeat (destruct H as [E|H]; [injection E as <- <-; vm_compute; reflexivity|]). destruct H. Qed.
Print Assumptions C77_defaults_refuted.

(** So with indexes on expressions, with operator classes, storage parameters or INCLUDE. *)
Theorem C77_indexes_refuted : forall columns,
  In columns ["btree (lower((a)::text))"; "btree (((a + b)))"; "btree (a DESC NULLS LAST)"; "btree (a text_pattern_ops)";
              "btree (a) INCLUDE (b)"; "btree (a) WITH (fillfactor='70')"; "btree (a) WHERE (a = ANY (ARRAY[1, 2]))"] ->
  fails (parse_file Postgres (dump_database (indexed columns))) = true.
Proof. intros c H. repeat (destruct H as [<-|H]; [vm_compute; reflexivity|]). destruct H. Qed.
Print Assumptions C77_indexes_refuted.

(** So with ON DELETE SET DEFAULT, and with a table that has no columns. *)
Theorem C77_set_default_refuted :
  fails (parse_file Postgres (dump_database (fk_constraint_on ["a"] ["x"] "SET DEFAULT"))) = true /\
  fails (parse_file Postgres (dump_database (just "public" [] [] [] []))) = true.
Proof. split; vm_compute; reflexivity. Qed.
Print Assumptions C77_set_default_refuted.

(** The method of an index is not read: a GIN index is taken for a B-tree. *)
Theorem C77_index_method_refuted : exists l l',
  parse_file Postgres (dump_database (indexed "gin (a)")) = Ok l /\
  parse_file Postgres (dump_database (indexed "btree (a)")) = Ok l' /\
  map without_text l = map without_text l' /\
  plan_text Postgres (dump_database (indexed "gin (a)")) (dump_database (indexed "btree (a)")) = Ok [].
Proof. do 2 eexists. split; [|split; [|split]]; vm_compute; reflexivity. Qed.
Print Assumptions C77_index_method_refuted.

(** ** C78: one's own export changes nothing *)
Theorem C78_own_export_changes_nothing_partial quoted d :
  database_readable quoted d = true -> database_ok (ideal d) ->
  plan_text Postgres (dump_database (catalogue quoted d)) (dump_database (catalogue quoted d)) = Ok [].
Proof. exact (own_export_settled quoted d). Qed.
Print Assumptions C78_own_export_changes_nothing_partial.

Example C78_example : database_readable is_quoted blog = true /\ database_ok (ideal blog).
Proof. split; [exact blog_readable|exact blog_ok]. Qed.

(** A policy on a table of another schema is exported as one on a table of public. *)
Theorem C78_policy_in_schema_refuted : exists statement,
  plan_text Postgres (dump_database app_policy) (dump_database app_policy) = Err (EBeforeCreateTable statement).
Proof. eexists. vm_compute. reflexivity. Qed.
Print Assumptions C78_policy_in_schema_refuted.

(** A foreign key of two columns is exported four times. *)
Theorem C78_composite_key_refuted : exists statement,
  let file := dump_database (fk_constraint_on ["a"; "b"] ["x"; "y"] "NO ACTION") in
  plan_text Postgres file file = Err (EDoublyCreated "f" "public.t" statement).
Proof. eexists. vm_compute. reflexivity. Qed.
Print Assumptions C78_composite_key_refuted.

(** ** C79: from the texts to the schema *)

(** The texts planned are those of a plan against the database itself. *)
Theorem C79_plan_is_made_for_the_database_partial quoted d desired l texts :
  database_readable quoted d = true -> parse_file Postgres desired = Ok l ->
  (plan_text Postgres desired (dump_database (catalogue quoted d)) = Ok texts <->
   exists out, plan Postgres l (pg_dump (ideal d)) = Ok out /\ texts = map s_text out).
Proof. exact (plan_from_texts quoted d desired l texts). Qed.
Print Assumptions C79_plan_is_made_for_the_database_partial.

(** Executing the texts planned brings the database to the schema of the file. *)
Theorem C79_file_reaches_the_database_partial quoted castable replaceable d desired l texts :
  database_readable quoted d = true -> database_ok (ideal d) ->
  parse_file Postgres desired = Ok l -> pg_schema l -> pg_convertible castable replaceable l (ideal d) ->
  plan_text Postgres desired (dump_database (catalogue quoted d)) = Ok texts ->
  exists out db', texts = map s_text out /\
    execute_all g_name pg_create (pg_alter castable) replaceable out (ideal d) = Some db' /\
    db_reached l db' /\ database_ok db'.
Proof. exact (texts_converge quoted castable replaceable d desired l texts). Qed.
Print Assumptions C79_file_reaches_the_database_partial.

(** A database that has the schema of the file is left alone. *)
Theorem C79_next_run_is_empty_partial quoted d desired l :
  database_readable quoted d = true -> database_ok (ideal d) ->
  parse_file Postgres desired = Ok l -> pg_schema l -> db_reached l (ideal d) ->
  plan_text Postgres desired (dump_database (catalogue quoted d)) = Ok [].
Proof. exact (texts_settled quoted d desired l). Qed.
Print Assumptions C79_next_run_is_empty_partial.

Example C79_example :
  database_readable is_quoted club = true /\ database_ok (ideal club) /\ parse_file Postgres club_wants = Ok club_parsed /\
  pg_schema club_parsed /\ pg_convertible every_cast every_view club_parsed (ideal club) /\
  plan_text Postgres club_wants (dump_database (catalogue is_quoted club)) =
    Ok ["ALTER TABLE ""public"".""users"" ALTER COLUMN ""age"" TYPE bigint";
        "ALTER TABLE ""public"".""users"" ALTER COLUMN ""age"" SET NOT NULL";
        "ALTER TABLE ""public"".""users"" ALTER COLUMN ""age"" SET DEFAULT 20";
        "CREATE INDEX by_age ON users (age)"; "DROP INDEX ""by_nick""";
        "ALTER TABLE ""public"".""users"" DROP COLUMN ""nick"""].
Proof.
  split; [exact club_readable|]. split; [exact club_ok|]. split; [exact club_parses|]. split; [exact club_schema|]. split; [exact club_convertible|].
  apply (C79_plan_is_made_for_the_database_partial _ _ _ _ _ club_readable club_parses). eexists. split; vm_compute; reflexivity.
Qed.

Example C79_next_example :
  database_readable is_quoted club_after = true /\ database_ok (ideal club_after) /\ db_reached club_parsed (ideal club_after).
Proof.
  split; [exact club_after_readable|]. split; [exact club_after_ok|].
  destruct (pg_converges every_cast every_view club_parsed (ideal club_after) [] club_schema club_after_ok club_after_convertible)
    as (db' & E & D & _); [vm_compute; reflexivity|]. injection E as <-. exact D.
Qed.
