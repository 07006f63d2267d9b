(** Property C106 on MySQL. *)
From Coq Require Import String Ascii List ZArith Bool.
From Verif Require Import GoStr Ast Generator SpecPlan SpecMysql SpecConverge SpecResumeMy DemoPlan DemoConverge DemoAgree DemoResumeMy ProofResumeMy.
Import ListNotations.
Local Open Scope string_scope.
Local Open Scope list_scope.

(** Any number of runs, each stopped before its first statement that changes a column to one with AUTO_INCREMENT,
    or drops a key of a table that has such a column in the file; then a run that has a plan is executed to its end, and the catalogue
    has the schema of the file, in the domain of C29.
    Missing: runs stopped after such a statement. *)
Theorem C106_stopped_mysql_run_is_resumed_partial l a b out :
  mysql_schema l -> catalogue_ok a -> convertible l a -> my_attempts l a b -> plan Mysql l (dump b) = Ok out ->
  exists c, run_all out b = Some c /\ reached l c /\ plan Mysql l (dump c) = Ok [].
Proof. exact (fun S => my_resumed l S a b out). Qed.
Print Assumptions C106_stopped_mysql_run_is_resumed_partial.

(** Stopped twice. *)
Example C106_mysql_example :
  mysql_schema shop_desired /\ catalogue_ok bare /\ convertible shop_desired bare /\ my_attempts shop_desired bare shop_more /\
  plan Mysql shop_desired (dump shop_more) = Ok third_plan /\ length first_plan = 9 /\ length second_plan = 7 /\ length third_plan = 5.
Proof.
  split; [exact shop_schema|]. split; [exact bare_ok|]. split; [exact (bare_convertible _)|].
  split; [exact (my_more _ _ _ _ begun (my_more _ _ _ _ more (my_none _ _)))|]. split; [exact thirdly|]. split; [reflexivity|]. split; reflexivity.
Qed.

(** A table altered step by step, stopped twice. *)
Example C106_mysql_altered_example :
  mysql_schema grows /\ catalogue_ok grown_from /\ convertible grows grown_from /\ my_attempts grows grown_from nearly_grown /\
  plan Mysql grows (dump nearly_grown) = Ok last_growth /\ length growing = 8 /\ length still_growing = 3 /\
  map s_text last_growth = ["ALTER TABLE `t` DROP COLUMN `gone`"].
Proof.
  split; [exact grows_schema|]. split; [exact grown_from_ok|]. split; [exact grows_convertible|].
  split; [exact (my_more _ _ _ _ grown_half (my_more _ _ _ _ grown_more (my_none _ _)))|]. split; [exact growth_ends|]. split; [reflexivity|]. split; reflexivity.
Qed.

(** A file without AUTO_INCREMENT: any number of runs, each stopped anywhere, in the domain of C29.
    Missing: files with AUTO_INCREMENT, but see above. *)
Theorem C106_stopped_mysql_run_is_resumed_without_counters_partial l a b out :
  mysql_schema l -> (forall t c, In t (tables_in l) -> In c (t_columns t) -> c_autoinc c = false) ->
  catalogue_ok a -> convertible l a -> my_stopped_often l a b -> plan Mysql l (dump b) = Ok out ->
  exists c, run_all out b = Some c /\ reached l c /\ plan Mysql l (dump c) = Ok [].
Proof. exact (fun S N => my_resumed_anywhere l S N a b out). Qed.
Print Assumptions C106_stopped_mysql_run_is_resumed_without_counters_partial.

(** Stopped between DROP PRIMARY KEY and ADD PRIMARY KEY, and again before an index is dropped. *)
Example C106_mysql_keys_example :
  mysql_schema rekeyed /\ (forall t c, In t (tables_in rekeyed) -> In c (t_columns t) -> c_autoinc c = false) /\
  catalogue_ok old_keys /\ convertible rekeyed old_keys /\ my_stopped_often rekeyed old_keys three_keys /\
  plan Mysql rekeyed (dump three_keys) = Ok last_key /\
  map s_text rekeying = ["ALTER TABLE `t` DROP PRIMARY KEY"; "ALTER TABLE `t` ADD primary key (`a`)"; "ALTER TABLE `t` ADD  `new` (`id`)"; "ALTER TABLE `t` DROP INDEX `old`"] /\
  map s_text last_key = ["ALTER TABLE `t` DROP INDEX `old`"].
Proof.
  split; [exact rekeyed_schema|]. split; [exact rekeyed_counts_nothing|]. split; [exact old_keys_ok|]. split; [exact rekeyed_convertible|].
  split; [exact (often_more _ _ _ _ stopped_keyless (often_more _ _ _ _ stopped_three (often_none _ _)))|]. split; [exact rekeyed_ends|]. split; reflexivity.
Qed.
