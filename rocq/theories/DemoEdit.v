(** Edited files for the examples of C105. *)
From Coq Require Import String Ascii List ZArith Bool.
From Verif Require Import GoStr Ast Generator SpecPlan SpecMysql SpecDatabase SpecPostgres SpecMssql SpecShownMssql DemoPlan DemoConverge DemoConvergePg DemoConvergeMs DemoAgree DemoHistory.
Import ListNotations.
Local Open Scope string_scope.
Local Open Scope list_scope.

(** Only the table [n] and the views are left of the file, and another table is new. *)
Definition edited (n : string) (new l : list ddl) : list ddl := statements_on n l ++ map DView (views_in l) ++ new.
Definition my_edit : list ddl := edited "users" price_file DemoConverge.shop_desired.
Definition pg_edit : list ddl := edited "public.users" unique_file store_desired.
Definition ms_edit : list ddl := edited "users" other_schema market_schema.
