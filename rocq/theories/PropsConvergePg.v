(** Property C30: on an ideal PostgreSQL one run of the plan reaches the desired schema and the
    next run has nothing to do. *)
From Coq Require Import String Ascii List ZArith Bool.
From Verif Require Import GoStr Ast Generator SpecPlan SpecColumns SpecMysql SpecDatabase SpecPostgres SpecConvergePg
  DemoPlan DemoConverge DemoConvergePg ProofPgCheck ProofPgSettle.
Import ListNotations.
Local Open Scope string_scope.
Local Open Scope list_scope.

(** The full statement asks this of every pair of well-formed schemas.  It is false of the
    program, see the refutations below; [pg_schema], [database_ok] and [pg_convertible] state what
    is asked of the desired schema, of the database and of the two together, clause by clause.
    Which types PostgreSQL can cast and which views it can replace is left open. *)
Theorem C30_one_run_reaches_the_schema_partial castable replaceable desired db out :
  pg_schema desired -> database_ok db -> pg_convertible castable replaceable desired db ->
  plan Postgres desired (pg_dump db) = Ok out ->
  exists db', execute_all g_name pg_create (pg_alter castable) replaceable out db = Some db' /\
              db_reached desired db' /\ database_ok db' /\
              plan Postgres desired (pg_dump db') = Ok [].
Proof. exact (pg_converges castable replaceable desired db out). Qed.
Print Assumptions C30_one_run_reaches_the_schema_partial.

(** A database that has the schema, however it came to have it, is left alone. *)
Theorem C30_nothing_to_do_when_reached_partial desired db :
  pg_schema desired -> database_ok db -> db_reached desired db ->
  plan Postgres desired (pg_dump db) = Ok [].
Proof. exact (pg_nothing_more desired db). Qed.
Print Assumptions C30_nothing_to_do_when_reached_partial.

(** The condition on schema and database together can be tested. *)
Theorem C30_convertible_is_testable castable replaceable desired db :
  pg_convertible_b castable replaceable desired db = true ->
  pg_convertible castable replaceable desired db.
Proof. exact (pg_convertible_b_ok castable replaceable desired db). Qed.
Print Assumptions C30_convertible_is_testable.

(** Types, NOT NULL, defaults, identities, checks, keys, indexes, foreign keys, policies, views
    and tables changed, added and removed. *)
Example C30_example :
  pg_schema store_desired /\ database_ok store /\ pg_convertible every_cast every_view store_desired store /\
  plan Postgres store_desired (pg_dump store) = Ok (pg_plan store_desired store) /\
  length (pg_plan store_desired store) = 34.
Proof.
  split; [exact store_schema|]. split; [exact store_ok|]. split; [exact store_convertible|].
  split; vm_compute; reflexivity.
Qed.

Example C30_reached_example :
  db_reached store_desired (pg_after store_desired store) /\ database_ok (pg_after store_desired store) /\
  pg_after store_desired store <> store.
Proof.
  destruct (C30_one_run_reaches_the_schema_partial every_cast every_view store_desired store (pg_plan store_desired store))
    as (c & Hr & H1 & H2 & _);
    [exact store_schema|exact store_ok|exact store_convertible|vm_compute; reflexivity|].
  rewrite (pg_after_run _ _ _ Hr). split; [exact H1|]. split; [exact H2|]. intros ->.
  apply pg_after_run in Hr. pose proof store_after as E. rewrite Hr in E. discriminate.
Qed.

(** ** What keeps the full statement from holding *)

(** GENERATED ... AS IDENTITY without NOT NULL: after the table is created every run fails. *)
Theorem C30_identity_without_not_null_refuted : exists desired db,
  pg_run (pg_plan desired pg_empty) pg_empty = Some db /\ database_ok db /\
  pg_texts desired db = Some ["ALTER TABLE ""public"".""t"" ALTER COLUMN ""a"" DROP NOT NULL"] /\
  pg_run (pg_plan desired db) db = None.
Proof.
  exists (t_only [counting "ALWAYS" (col "a" 0 "integer")]).
  exists (pg_one (pg_t [counting "ALWAYS" (not_null_col (col "a" 0 "integer"))])).
  split; [vm_compute; reflexivity|]. split; [pg_database_ok|]. split; vm_compute; reflexivity.
Qed.
Print Assumptions C30_identity_without_not_null_refuted.

(** A default cannot be replaced by an identity: ADD GENERATED comes before DROP DEFAULT. *)
Theorem C30_identity_for_default_refuted : exists desired db,
  pg_schema desired /\ database_ok db /\
  pg_texts desired db =
    Some ["ALTER TABLE ""public"".""t"" ALTER COLUMN ""a"" ADD GENERATED ALWAYS AS IDENTITY";
          "ALTER TABLE ""public"".""t"" ALTER COLUMN ""a"" DROP DEFAULT"] /\
  pg_run (pg_plan desired db) db = None.
Proof.
  exists (t_only [counting "ALWAYS" (not_null_col (col "a" 0 "integer"))]).
  exists (pg_one (pg_t [with_default (int_value 1 "1") (not_null_col (col "a" 0 "integer"))])).
  split; [pg_schema_ok|]. split; [pg_database_ok|]. split; vm_compute; reflexivity.
Qed.
Print Assumptions C30_identity_for_default_refuted.

(** UNIQUE added to an existing column is ignored. *)
Theorem C30_added_unique_is_ignored_refuted : exists desired db,
  pg_schema desired /\ database_ok db /\ plan Postgres desired (pg_dump db) = Ok [] /\ ~ db_reached desired db.
Proof.
  exists (t_only [key KeyUnique (col "a" 0 "integer")]), (pg_one (pg_t [col "a" 0 "integer"])).
  split; [pg_schema_ok|]. split; [pg_database_ok|]. split; [vm_compute; reflexivity|].
  intros H. destruct (dr_table _ _ H _ (or_introl eq_refl)) as (s & [<-|[]] & _ & Hr).
  destruct (pr_unique _ _ _ Hr _ (or_introl eq_refl) eq_refl) as (k & [] & _).
Qed.
Print Assumptions C30_added_unique_is_ignored_refuted.

(** UNIQUE cannot be removed: its index belongs to a constraint. *)
Theorem C30_unique_cannot_be_removed_refuted : exists desired db,
  pg_schema desired /\ database_ok db /\ pg_texts desired db = Some ["DROP INDEX ""t_a_key"""] /\
  pg_run (pg_plan desired db) db = None.
Proof.
  exists (t_only [col "a" 0 "integer"]), with_unique.
  split; [pg_schema_ok|]. split; [pg_database_ok|]. split; vm_compute; reflexivity.
Qed.
Print Assumptions C30_unique_cannot_be_removed_refuted.

(** A schema with a UNIQUE column, exported and applied to an empty database, fails: the index of
    the column is created twice. *)
Theorem C30_export_of_unique_column_cannot_be_applied_refuted : exists db,
  database_ok db /\ plan Postgres (pg_dump db) (pg_dump db) = Ok [] /\
  pg_run (pg_plan (pg_dump db) pg_empty) pg_empty = None.
Proof.
  exists with_unique. split; [pg_database_ok|]. split; vm_compute; reflexivity.
Qed.
Print Assumptions C30_export_of_unique_column_cannot_be_applied_refuted.

(** An obsolete foreign key over two columns is dropped four times. *)
Theorem C30_composite_foreign_key_is_dropped_repeatedly_refuted : exists desired db,
  pg_schema desired /\ database_ok db /\
  pg_texts desired db = Some (repeat "ALTER TABLE ""public"".""t"" DROP CONSTRAINT ""f""" 4) /\
  pg_run (pg_plan desired db) db = None.
Proof.
  exists (t_only [col "a" 0 "integer"; col "b" 1 "integer"]), pair_fk.
  split; [pg_schema_ok|]. split; [pg_database_ok|]. split; vm_compute; reflexivity.
Qed.
Print Assumptions C30_composite_foreign_key_is_dropped_repeatedly_refuted.

(** The type "timestamptz" is changed at every run. *)
Theorem C30_timestamptz_is_never_settled_refuted : exists desired db,
  pg_run (pg_plan desired pg_empty) pg_empty = Some db /\ database_ok db /\
  pg_texts desired db = Some ["ALTER TABLE ""public"".""t"" ALTER COLUMN ""a"" TYPE timestamptz"] /\
  pg_run (pg_plan desired db) db = Some db.
Proof.
  exists (t_only [col "a" 0 "timestamptz"]), (pg_one (pg_t [with_zone (col "a" 0 "timestamp")])).
  split; [vm_compute; reflexivity|]. split; [pg_database_ok|]. split; vm_compute; reflexivity.
Qed.
Print Assumptions C30_timestamptz_is_never_settled_refuted.

(** A change of time zone, precision or new length is not noticed. *)
Theorem C30_type_changes_are_ignored_refuted : exists a b c d e f,
  c_timezone a <> c_timezone b /\ c_length c <> c_length d /\ c_length e <> c_length f /\
  plan Postgres (t_only [a]) (pg_dump (pg_one (pg_t [b]))) = Ok [] /\
  plan Postgres (t_only [c]) (pg_dump (pg_one (pg_t [d]))) = Ok [] /\
  plan Postgres (t_only [e]) (pg_dump (pg_one (pg_t [f]))) = Ok [].
Proof.
  exists (with_zone (col "a" 0 "timestamp")), (col "a" 0 "timestamp"),
    (with_length 10 "10" (col "a" 0 "numeric")), (with_length 5 "5" (col "a" 0 "numeric")),
    (with_length 10 "10" (col "a" 0 "varchar")), (col "a" 0 "character varying").
  split; [discriminate|]. split; [discriminate|]. split; [discriminate|]. repeat split; vm_compute; reflexivity.
Qed.
Print Assumptions C30_type_changes_are_ignored_refuted.

(** Changing a CHECK of a table outside the schema public fails. *)
Theorem C30_check_outside_public_refuted : exists desired db,
  pg_schema desired /\ database_ok db /\
  pg_texts desired db = Some ["ALTER TABLE ""app"".""t"" DROP CONSTRAINT app.t_a_check";
                              "ALTER TABLE ""app"".""t"" ADD CONSTRAINT app.t_a_check CHECK (a > 1)"] /\
  pg_run (pg_plan desired db) db = None.
Proof.
  exists (app_only "a > 1"), (app_checked "a > 0").
  split; [pg_schema_ok|]. split; [pg_database_ok|]. split; vm_compute; reflexivity.
Qed.
Print Assumptions C30_check_outside_public_refuted.

(** REFERENCES of an added column is lost. *)
Theorem C30_references_of_added_column_is_lost_refuted : exists desired db,
  pg_schema desired /\ database_ok db /\
  pg_texts desired db = Some ["ALTER TABLE ""public"".""t"" ADD COLUMN ""b"" integer"] /\
  plan Postgres desired (pg_dump (pg_after desired db)) = Ok [] /\ ~ db_reached desired (pg_after desired db).
Proof.
  exists adds_reference, (pg_one (pg_t [col "a" 0 "integer"])).
  split; [pg_schema_ok|]. split; [pg_database_ok|]. split; [vm_compute; reflexivity|]. split; [vm_compute; reflexivity|].
  intros H. destruct (dr_table _ _ H _ (or_introl eq_refl)) as (s & Hs & _ & Hr). rewrite column_b_added in Hs. destruct Hs as [<-|[]].
  destruct (pr_references _ _ _ Hr _ (or_intror (or_introl eq_refl))) as (f & [] & _). discriminate.
Qed.
Print Assumptions C30_references_of_added_column_is_lost_refuted.
