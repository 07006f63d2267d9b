(** Which differences between a column of the database and of the schema file are noticed. *)
From Coq Require Import String Ascii List ZArith Bool.
From Verif Require Import GoStr Ast Generator SpecPlan SpecColumns.
Import ListNotations.
Local Open Scope string_scope.
Local Open Scope list_scope.

(** [cc] is the column of [ct], [c] the one wanted. *)
Definition differs (m : mode) (ct : table) (cc c : column) : Prop :=
  match m with
  | Mysql => ~ definition_matches cc c \/ ~ default_matches cc c \/ c_autoinc cc <> c_autoinc c
  | Postgres =>
      ~ data_type_matches Postgres cc c \/ (~ in_primary_key ct cc /\ ~ (required cc <-> required c)) \/
      c_identity cc <> c_identity c \/ ~ default_matches cc c \/
      (~ check_matches cc c /\ (c_check cc <> None \/ c_check c <> None))
  | Mssql => ~ default_matches cc c \/ (~ check_matches cc c /\ (c_check cc <> None \/ c_check c <> None))
  | SQLite3 => False
  end.
