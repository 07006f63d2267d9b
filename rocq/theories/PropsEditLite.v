(** Property C105 on SQLite. *)
From Coq Require Import String Ascii List ZArith Bool.
From Verif Require Import GoStr Ast Generator SchemaText SchemaParse Parser Planner Catalog AdapterSqlite SpecText SpecExport SpecPlan SpecLayout SpecSqlite SpecEdit SpecEditLite
  DemoPlan DemoSqlite DemoHistory DemoEditLite ProofEditLite.
Import ListNotations.
Local Open Scope string_scope.
Local Open Scope list_scope.

(** Whatever part of the plan of the edited file has been executed, the catalogue has the same rows for a
    table of which both files say the same, those of its indexes and triggers included. *)
Theorem C105_sqlite_unedited_tables_stay n l l' a current definitions out' pre b t : lite_ok a -> holds a n (LTable t) ->
  lite_dump a = Some current -> parse_file SQLite3 current = Ok definitions ->
  NoDup (created l) -> NoDup (created l') -> plan SQLite3 l definitions = Ok [] -> plan SQLite3 l' definitions = Ok out' ->
  statements_on n l = statements_on n l' -> executed_first pre out' -> executes_all pre a b -> rows_of n b = rows_of n a.
Proof. exact (lite_stays n l l' a current definitions out' pre b t). Qed.
Print Assumptions C105_sqlite_unedited_tables_stay.

(** Everything but one table is taken out of the file. *)
Example C105_sqlite_example : exists t current definitions out', lite_ok shop_after /\ holds shop_after "users" (LTable t) /\
  lite_dump shop_after = Some current /\ parse_file SQLite3 current = Ok definitions /\
  NoDup (created shop_parsed) /\ NoDup (created users_left) /\ plan SQLite3 shop_parsed definitions = Ok [] /\ plan SQLite3 users_left definitions = Ok out' /\
  statements_on "users" shop_parsed = statements_on "users" users_left /\ length out' = 4 /\ executes_all out' shop_after users_rows /\
  length (rows_of "users" shop_after) = 3.
Proof.
  eexists _, _, _, _. split; [exact after_ok|]. split; [exact after_users|]. split; [vm_compute; reflexivity|]. split; [vm_compute; reflexivity|].
  split; [names_once|]. split; [names_once|]. split; [vm_compute; reflexivity|]. split; [exact users_planned|]. split; [vm_compute; reflexivity|].
  split; [vm_compute; reflexivity|]. split; [exact users_executed|vm_compute; reflexivity].
Qed.
