(** MySQL runs that stop before their end, at some of the places where they can: MySQL commits every
    statement by itself, so what was executed stays (adapter/database.go 60-79: the rollback changes nothing). *)
From Coq Require Import String List Bool.
From Verif Require Import GoStr Ast Generator SpecPlan SpecMysql.
Import ListNotations.

(** No column that the file gives the table has AUTO_INCREMENT. *)
Definition counts_nothing (l : list ddl) (n : string) : Prop :=
  forall t c, In t (tables_in l) -> t_name t = n -> In c (t_columns t) -> c_autoinc c = false.

(** All statements but those by which sqldef changes a column to one with AUTO_INCREMENT, and those that drop a
    key of a table that has such a column in the file. *)
Definition may_stop_after (l : list ddl) (e : effect) : Prop :=
  match e with
  | EffChangeColumn _ _ c _ => c_autoinc c = false
  | EffDropIndex n _ | EffDropPrimaryKey n => counts_nothing l n
  | _ => True
  end.

Definition my_attempt (l : list ddl) (a b : catalogue) : Prop :=
  exists out done rest, plan Mysql l (dump a) = Ok out /\ out = done ++ rest /\
    (forall s, In s done -> may_stop_after l (s_eff s)) /\ run_all done a = Some b.

Inductive my_attempts (l : list ddl) : catalogue -> catalogue -> Prop :=
| my_none a : my_attempts l a a
| my_more a b c : my_attempt l a b -> my_attempts l b c -> my_attempts l a c.

(** Runs stopped anywhere. *)
Definition my_stopped (l : list ddl) (a b : catalogue) : Prop :=
  exists out done rest, plan Mysql l (dump a) = Ok out /\ out = done ++ rest /\ run_all done a = Some b.
Inductive my_stopped_often (l : list ddl) : catalogue -> catalogue -> Prop :=
| often_none a : my_stopped_often l a a
| often_more a b c : my_stopped l a b -> my_stopped_often l b c -> my_stopped_often l a c.
