(** Property C105: editing one object of a file touches no other. *)
From Coq Require Import String Ascii List ZArith Bool.
From Verif Require Import GoStr Ast Generator SpecPlan SpecMysql SpecDatabase SpecPostgres SpecMssql SpecShownMssql SpecEdit DemoPlan DemoConverge DemoConvergePg DemoConvergeMs DemoAgree
  DemoHistory DemoEdit ProofEdit.
Import ListNotations.
Local Open Scope string_scope.
Local Open Scope list_scope.

(** The database is in agreement with the file [l]; the file is edited to [l'], which says the same of the
    table [n]: no statement of the new plan is about [n]. *)
Theorem C105_unedited_tables_are_not_altered m n l l' current out' :
  NoDup (created l) -> NoDup (created l') -> plan m l current = Ok [] -> plan m l' current = Ok out' ->
  statements_on n l = statements_on n l' -> forall s, In s out' -> eff_table (s_eff s) <> Some n.
Proof. exact (unedited m n l l' current out'). Qed.
Print Assumptions C105_unedited_tables_are_not_altered.

(** SQLite, for the three dialects with an ideal database see below. *)
Example C105_example : exists l l' current out', NoDup (created l) /\ NoDup (created l') /\
  plan SQLite3 l current = Ok [] /\ plan SQLite3 l' current = Ok out' /\ statements_on "posts" l = statements_on "posts" l' /\
  statements_on "posts" l <> [] /\ length out' = 3.
Proof.
  exists (blog_desired ""), (edited "posts" price_file (blog_desired "")), (blog_desired ""). eexists.
  split; [distinct_names|]. split; [distinct_names|]. split; [vm_compute; reflexivity|]. split; [vm_compute; reflexivity|]. split; [vm_compute; reflexivity|].
  split; [vm_compute; discriminate|vm_compute; reflexivity].
Qed.

(** Nor is a statement about a view of which both files say the same. *)
Theorem C105_unedited_views_are_not_altered m n l l' current out' :
  NoDup (created l) -> NoDup (created l') -> plan m l current = Ok [] -> plan m l' current = Ok out' ->
  same_view_in n l l' -> In n (map vw_name (views_in l')) ->
  forall s o, In s out' -> In o (view_ops (s_eff s)) -> view_op_name o <> n.
Proof. exact (unedited_view m n l l' current out'). Qed.
Print Assumptions C105_unedited_views_are_not_altered.

(** One view stays, the other is edited. *)
Example C105_view_example : exists l l' current out', NoDup (created l) /\ NoDup (created l') /\
  plan Mssql l current = Ok [] /\ plan Mssql l' current = Ok out' /\ same_view_in "v1" l l' /\ In "v1" (map vw_name (views_in l')) /\
  effects view_ops out' = [ViewDrop "v3"; ViewCreate "v3" "select 4"].
Proof.
  exists (blog_desired ""), (statements_on "tags" (blog_desired "") ++
    [DView (mkView "CREATE VIEW v3 AS select 4" "v3" "select 4"); DView (mkView "create view v1 as select 10" "v1" "select 10")]), (blog_desired "").
  eexists. split; [distinct_names|]. split; [distinct_names|]. split; [vm_compute; reflexivity|]. split; [vm_compute; reflexivity|]. split.
  - exists (mkView "CREATE VIEW v1 AS select 10" "v1" "select 10"). split; [vm_compute; auto|]. split; [reflexivity|].
    intros v' V E. vm_compute in V. destruct V as [<-|[<-|[]]]; [discriminate E|reflexivity].
  - split; vm_compute; auto.
Qed.

(** Whatever part of the new plan has been executed, the table is exactly as it was. *)
Theorem C105_mysql_unedited_tables_stay n l l' b out' pre b' :
  NoDup (created l) -> NoDup (created l') -> plan Mysql l (dump b) = Ok [] -> plan Mysql l' (dump b) = Ok out' ->
  statements_on n l = statements_on n l' -> executed_first pre out' -> run_all pre b = Some b' ->
  named t_name n (cat_tables b') = named t_name n (cat_tables b).
Proof. exact (my_stays n l l' b out' pre b'). Qed.
Print Assumptions C105_mysql_unedited_tables_stay.

Example C105_mysql_example : exists out' b', NoDup (created DemoConverge.shop_desired) /\ NoDup (created my_edit) /\
  plan Mysql DemoConverge.shop_desired (dump shop_end) = Ok [] /\ plan Mysql my_edit (dump shop_end) = Ok out' /\
  statements_on "users" DemoConverge.shop_desired = statements_on "users" my_edit /\ run_all out' shop_end = Some b' /\
  map t_name (cat_tables shop_end) = ["users"; "posts"; "tags"] /\ map t_name (cat_tables b') = ["users"; "t"].
Proof.
  eexists _, _. split; [distinct_names|]. split; [distinct_names|]. split; [vm_compute; reflexivity|]. split; [vm_compute; reflexivity|].
  split; [vm_compute; reflexivity|]. split; [vm_compute; reflexivity|]. split; vm_compute; reflexivity.
Qed.

Theorem C105_postgres_unedited_tables_stay castable replaceable n l l' b out' pre b' :
  NoDup (created l) -> NoDup (created l') -> plan Postgres l (pg_dump b) = Ok [] -> plan Postgres l' (pg_dump b) = Ok out' ->
  statements_on n l = statements_on n l' -> executed_first pre out' -> execute_all g_name pg_create (pg_alter castable) replaceable pre b = Some b' ->
  named g_name n (db_tables b') = named g_name n (db_tables b).
Proof. exact (pg_stays castable replaceable n l l' b out' pre b'). Qed.
Print Assumptions C105_postgres_unedited_tables_stay.

Example C105_postgres_example : exists out' b', NoDup (created store_desired) /\ NoDup (created pg_edit) /\
  plan Postgres store_desired (pg_dump store_one) = Ok [] /\ plan Postgres pg_edit (pg_dump store_one) = Ok out' /\
  statements_on "public.users" store_desired = statements_on "public.users" pg_edit /\
  execute_all g_name pg_create (pg_alter every_cast) every_view out' store_one = Some b' /\ map g_name (db_tables b') = ["public.users"; "public.t"].
Proof.
  eexists _, _. split; [distinct_names|]. split; [distinct_names|]. split; [vm_compute; reflexivity|]. split; [vm_compute; reflexivity|].
  split; [vm_compute; reflexivity|]. split; vm_compute; reflexivity.
Qed.

Theorem C105_sql_server_unedited_tables_stay w replaceable n l l' b out' pre b' :
  NoDup (created l) -> NoDup (created l') -> plan Mssql l (ms_shown b) = Ok [] -> plan Mssql l' (ms_shown b) = Ok out' ->
  statements_on n l = statements_on n l' -> executed_first pre out' -> execute_all m_name (ms_create w) (ms_alter w) replaceable pre b = Some b' ->
  named m_name n (db_tables b') = named m_name n (db_tables b).
Proof. exact (ms_stays w replaceable n l l' b out' pre b'). Qed.
Print Assumptions C105_sql_server_unedited_tables_stay.

Example C105_sql_server_example : exists out' b', NoDup (created market_schema) /\ NoDup (created ms_edit) /\
  plan Mssql market_schema (ms_shown market_end) = Ok [] /\ plan Mssql ms_edit (ms_shown market_end) = Ok out' /\
  statements_on "users" market_schema = statements_on "users" ms_edit /\
  execute_all m_name (ms_create some_ways) (ms_alter some_ways) every_ms_view out' market_end = Some b' /\ map m_name (db_tables b') = ["users"; "t"].
Proof.
  eexists _, _. split; [distinct_names|]. split; [distinct_names|]. split; [vm_compute; reflexivity|]. split; [vm_compute; reflexivity|].
  split; [vm_compute; reflexivity|]. split; vm_compute; reflexivity.
Qed.
