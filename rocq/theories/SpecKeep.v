(** What is still there after some statements were executed.  Objects are looked up by name. *)
From Coq Require Import String Ascii List ZArith Bool.
From Verif Require Import GoStr Ast Generator SpecPlan SpecColumns SpecMysql SpecDatabase SpecPostgres SpecMssql SpecSource.
Import ListNotations.
Local Open Scope string_scope.
Local Open Scope list_scope.

(** Some of the statements of the plan that --skip-drop lets through, in any order: those without
    the letters DROP. *)
Definition let_through (m : mode) (desired current : list ddl) (sent : list stmt) : Prop :=
  exists out, plan m desired current = Ok out /\ forall st, In st sent -> In st out /\ contains (s_text st) "DROP" = false.

(** Each [x] called [n] has become a [y] with [R x y]. *)
Definition still {A} (name : A -> string) (R : A -> A -> Prop) (l l' : list A) : Prop :=
  forall n x, named name n l = Some x -> exists y, named name n l' = Some y /\ R x y.
Definition anything {A} (x y : A) : Prop := True.
Definition if_any {A} (o o' : option A) : Prop := o <> None -> o' <> None.
Definition if_some {A} (o o' : option A) : Prop := forall x, o = Some x -> o' = Some x.

(** MySQL: columns may be redefined; keys, foreign keys and triggers are as they were. *)
Definition mysql_table_kept (t t' : table) : Prop :=
  still c_name anything (t_columns t) (t_columns t') /\ incl (t_indexes t) (t_indexes t') /\ incl (t_fks t) (t_fks t').
Definition mysql_kept (c c' : catalogue) : Prop :=
  still t_name mysql_table_kept (cat_tables c) (cat_tables c') /\
  still vw_name anything (cat_views c) (cat_views c') /\ incl (cat_triggers c) (cat_triggers c').

(** PostgreSQL: a column stays NOT NULL and an identity, and keeps its CHECK; it has a default if
    it had one. *)
Definition pg_column_kept (y y' : column) : Prop :=
  (c_notnull y = Some true -> c_notnull y' = Some true) /\ if_any (c_identity y) (c_identity y') /\
  if_some (c_check y) (c_check y') /\ if_any (c_default y) (c_default y').
Definition pg_table_kept (g g' : pg_tab) : Prop :=
  still c_name pg_column_kept (g_columns g) (g_columns g') /\ if_some (g_pk g) (g_pk g') /\
  incl (g_indexes g) (g_indexes g') /\ incl (g_fks g) (g_fks g') /\ incl (g_policies g) (g_policies g').

(** SQL Server: columns keep all they had. *)
Definition ms_column_kept (y y' : column) : Prop :=
  c_type y' = c_type y /\ c_length y' = c_length y /\ c_scale y' = c_scale y /\ c_notnull y' = c_notnull y /\ c_identity y' = c_identity y /\
  c_sequence y' = c_sequence y /\ if_some (c_check y) (c_check y') /\ if_some (c_default y) (c_default y').
Definition ms_table_kept (g g' : ms_tab) : Prop :=
  still c_name ms_column_kept (m_columns g) (m_columns g') /\ if_some (m_key g) (m_key g') /\
  incl (m_indexes g) (m_indexes g') /\ incl (m_fks g) (m_fks g').

Definition kept {T} (name : T -> string) (R : T -> T -> Prop) (c c' : database T) : Prop :=
  still name R (db_tables c) (db_tables c') /\ still vw_name anything (db_views c) (db_views c') /\
  still tr_name anything (db_triggers c) (db_triggers c').

(** DEFAULT NULL is not written. *)
Definition no_null_defaults (l : list ddl) : Prop :=
  forall t c d, In c (columns_of t l) -> c_default c = Some d -> real_default (Some d) <> None.
