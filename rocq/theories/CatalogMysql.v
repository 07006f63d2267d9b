(** What the queries of the MySQL adapter return (/repo/adapter/mysql/mysql.go 28-98). *)
From Coq Require Import String List.
From Verif Require Import Catalog.

Record my_view_row := mkMyViewRow { vr_schema : string; vr_name : string; vr_definition : string }.
Record my_server := mkMyServer {
  srv_tables : list (string * string);        (* the tables of the database and their SHOW CREATE TABLE *)
  srv_views : list string;                    (* the views of the database *)
  srv_view_rows : list my_view_row;           (* INFORMATION_SCHEMA.VIEWS: the views of all databases *)
  srv_triggers : list my_trigger }.
