(** Runs that stop before their end.  An attempt is a run of which only the first statements are executed:
    the plan is made for the catalogue as it is, and any number of its statements, from the first on, are
    executed.  Simplified: sqldef runs a plan in one transaction (adapter/database.go 60-79 [RunDDLs]), which
    is not used here, as when the output of --dry-run is given to another client. *)
From Coq Require Import String List Bool.
From Verif Require Import GoStr Ast Generator Catalog SchemaText Parser Planner AdapterSqlite SpecPlan SpecSqlite.
Import ListNotations.

Definition attempt (l : list ddl) (a b : list lite_row) : Prop :=
  exists current definitions out done rest, lite_dump a = Some current /\ parse_file SQLite3 current = Ok definitions /\
    plan SQLite3 l definitions = Ok out /\ out = done ++ rest /\ executes_all done a b.

Inductive attempts (l : list ddl) : list lite_row -> list lite_row -> Prop :=
| at_none a : attempts l a a
| at_more a b c : attempt l a b -> attempts l b c -> attempts l a c.
