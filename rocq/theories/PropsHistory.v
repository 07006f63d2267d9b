(** Property C104: only the last file applied counts. *)
From Coq Require Import String Ascii List ZArith Bool.
From Verif Require Import GoStr Ast Generator Catalog SchemaText Parser Planner AdapterSqlite SpecPlan SpecColumns SpecOrder SpecMysql SpecDatabase SpecPostgres SpecMssql
  SpecConverge SpecConvergePg SpecConvergeMs SpecSqlite SpecAgree SpecHistory SpecShownMssql DemoPlan DemoConverge DemoConvergePg DemoConvergeMs DemoSqlite DemoAgree DemoHistory
  ProofHistory.
Import ListNotations.
Local Open Scope string_scope.
Local Open Scope list_scope.

(** The full statement: two databases to which any files were applied, the last one the same, are equal in
    everything the last file says; so applying an earlier file again undoes what came after it.  Proved for
    files in the domain of the convergence theorems at each step, and for what the last file says (C102). *)
Theorem C104_mysql_last_file_counts_partial fs gs l a b a' b' :
  catalogue_ok a -> catalogue_ok b -> history my_step (fs ++ [l]) a a' -> history my_step (gs ++ [l]) b b' ->
  my_agree l a' b' /\ my_agree l b' a'.
Proof. exact (my_last fs gs l a b a' b'). Qed.
Print Assumptions C104_mysql_last_file_counts_partial.

Example C104_mysql_example :
  catalogue_ok bare /\ catalogue_ok DemoConverge.shop /\
  history my_step ([price_file] ++ [DemoConverge.shop_desired]) bare new_end /\
  history my_step ([] ++ [DemoConverge.shop_desired]) DemoConverge.shop shop_end /\ length (cat_tables shop_end) > 2.
Proof.
  split; [exact bare_ok|]. split; [exact DemoConverge.shop_ok|]. split; [exact prices_then_shop|]. split; [exact only_shop|]. vm_compute. repeat constructor.
Qed.

Theorem C104_postgres_last_file_counts_partial castable replaceable fs gs l a b a' b' :
  database_ok a -> database_ok b ->
  history (pg_step castable replaceable) (fs ++ [l]) a a' -> history (pg_step castable replaceable) (gs ++ [l]) b b' ->
  pg_agree l a' b' /\ pg_agree l b' a'.
Proof. exact (pg_last castable replaceable fs gs l a b a' b'). Qed.
Print Assumptions C104_postgres_last_file_counts_partial.

(** To another file and back. *)
Example C104_postgres_example :
  database_ok store /\
  history (pg_step every_cast every_view) ([store_desired; unique_file] ++ [store_desired]) store store_three /\
  history (pg_step every_cast every_view) ([] ++ [store_desired]) store store_one /\ length (db_tables store_two) = 1.
Proof. split; [exact store_ok|]. split; [exact store_and_back|]. split; [exact only_store|vm_compute; reflexivity]. Qed.

Theorem C104_sql_server_last_file_counts_partial w replaceable fs gs l a b a' b' :
  ms_names_given w -> ms_database_ok a -> ms_database_ok b ->
  history (ms_step w replaceable) (fs ++ [l]) a a' -> history (ms_step w replaceable) (gs ++ [l]) b b' ->
  ms_agree l a' b' /\ ms_agree l b' a'.
Proof. exact (ms_last w replaceable fs gs l a b a' b'). Qed.
Print Assumptions C104_sql_server_last_file_counts_partial.

Example C104_sql_server_example :
  ms_names_given some_ways /\ ms_database_ok ms_none /\ ms_database_ok (mq_ideal market) /\
  history (ms_step some_ways every_ms_view) ([other_schema] ++ [market_schema]) ms_none market_two /\
  history (ms_step some_ways every_ms_view) ([] ++ [market_schema]) (mq_ideal market) market_end.
Proof. split; [exact some_names|]. split; [exact ms_none_ok|]. split; [exact market_ok|]. split; [exact other_then_market|exact only_market]. Qed.

Theorem C104_sqlite_last_file_counts_partial fs gs file a b a' b' :
  lite_ok a -> lite_ok b -> history lite_step (fs ++ [file]) a a' -> history lite_step (gs ++ [file]) b b' -> lite_agree a' b'.
Proof. exact (lite_last fs gs file a b a' b'). Qed.
Print Assumptions C104_sqlite_last_file_counts_partial.

(** Emptied and filled again. *)
Example C104_sqlite_example : exists a' b', lite_ok DemoSqlite.shop /\
  history lite_step ([""] ++ [shop_file]) DemoSqlite.shop a' /\ history lite_step ([] ++ [shop_file]) DemoSqlite.shop b'.
Proof.
  destruct (lite_steps shop_file shop_parsed left_over shop_parses DemoSqlite.shop_schema left_ok left_convertible) as (a' & A).
  destruct (lite_steps shop_file shop_parsed DemoSqlite.shop shop_parses DemoSqlite.shop_schema DemoSqlite.shop_ok DemoSqlite.shop_convertible) as (b' & B).
  exists a', b'. split; [exact DemoSqlite.shop_ok|]. split; [exact (hi_cons _ _ _ _ _ _ emptied (then_last _ _ _ _ A))|exact (then_last _ _ _ _ B)].
Qed.

(** What the last file leaves out is not undone: a collation given in between stays. *)
Theorem C104_going_back_refuted : exists l other a b c,
  catalogue_ok a /\ history my_step [l] a b /\ history my_step [l; other; l] a c /\
  map (fun s => map c_collate (t_columns s)) (cat_tables b) = [[""]] /\
  map (fun s => map c_collate (t_columns s)) (cat_tables c) = [["utf8mb4_bin"]].
Proof.
  exists plain_file, collated_file, bare, uncollated, collated. split; [exact bare_ok|]. split; [exact only_plain|]. split; [exact collated_and_back|].
  split; vm_compute; reflexivity.
Qed.
Print Assumptions C104_going_back_refuted.
