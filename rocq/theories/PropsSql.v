(** Properties C05, C06, C49, C50: the text of the plan and what --skip-drop makes of it. *)
From Coq Require Import String Ascii List ZArith Bool.
From Verif Require Import GoStr GoNum Ast Generator SchemaText Runner SpecRunner SpecPlan SpecSql SpecDrop DemoRunner DemoPlan
  ProofSql ProofDrop.
Import ListNotations.
Local Open Scope string_scope.
Local Open Scope list_scope.

(** C49: every statement is the SQL of its operation. *)
Theorem C49_every_statement_is_the_sql_of_its_operation m desired current out :
  plan m desired current = Ok out ->
  Forall (fun st => sql_of m (s_eff st) = Some (s_text st)) out.
Proof. exact (plan_says m desired current out). Qed.
Print Assumptions C49_every_statement_is_the_sql_of_its_operation.

Example C49_example :
  plan Mysql (blog_desired "") (blog_current "") = Ok (plan_of Mysql "") /\
  map s_text (firstn 10 (plan_of Mysql "")) =
    ["ALTER TABLE `users` CHANGE COLUMN `name` `name` varchar(80)";
     "ALTER TABLE `users` CHANGE COLUMN `age` `age` int NOT NULL";
     "ALTER TABLE `users` ADD COLUMN `email` text DEFAULT 'x' AFTER `age`";
     "ALTER TABLE `users` DROP INDEX `by_name`";
     "ALTER TABLE `users` ADD UNIQUE `by_name` (`name`)";
     "ALTER TABLE `posts` DROP PRIMARY KEY";
     "ALTER TABLE `posts` ADD primary key (`id`, `user_id`)";
     "ALTER TABLE `posts` DROP FOREIGN KEY `fk_user`";
     "ALTER TABLE `posts` ADD CONSTRAINT `fk_user` FOREIGN KEY (`user_id`) REFERENCES `users` (`id`) ON DELETE SET NULL";
     "ALTER TABLE `posts` ADD CONSTRAINT `fk_new` FOREIGN KEY (`id`) REFERENCES `users` (`id`)"] /\
  plan Mssql (blog_desired "dbo.") (blog_current "dbo.") = Ok (plan_of Mssql "dbo.") /\
  map s_text (firstn 3 (plan_of Mssql "dbo.")) =
    ["ALTER TABLE [dbo].[users] ADD [email] text DEFAULT 'x'";
     "DROP INDEX [by_name] ON [dbo].[users]";
     "CREATE UNIQUE NONCLUSTERED INDEX [by_name] ON [dbo].[users] ([name])"].
Proof. vm_compute. repeat split; reflexivity. Qed.

(** C05: a statement that is sent removes nothing ... *)
Theorem C05_skip_drop_sends_no_removal w parse1 m o s :
  opt_skip_drop o = true -> In s (sent (run w parse1 m o)) ->
  exists out, planned_operations w parse1 m o = Ok out /\ In s (map s_text out) /\
    forall st, In st out -> s_text st = s -> removes (s_eff st) = false.
Proof. exact (sent_removes_nothing w parse1 m o s). Qed.
Print Assumptions C05_skip_drop_sends_no_removal.

(** ... and the line printed for a removal says that it is skipped. *)
Theorem C05_removals_are_shown_as_skipped m desired current out :
  plan m desired current = Ok out ->
  Forall (fun st => removes (s_eff st) = true ->
            line_for true (s_text st) = ("-- Skipped: " ++ s_text st ++ ";" ++ nl)%string) out.
Proof. exact (removals_shown_as_skipped m desired current out). Qed.
Print Assumptions C05_removals_are_shown_as_skipped.

Example C05_example :
  let t := run (demo_world true (fun _ => true) true "b;c") demo_parse Mysql skip_opts in
  sent t = ["c"] /\
  outputs t = map (fun s => (s ++ nl)%string) ["-- Apply --"; "c;"; "-- Skipped: DROP TABLE `a`;"] /\
  length (filter (fun st => removes (s_eff st)) (plan_of Mysql "")) = 13.
Proof. vm_compute. repeat split; reflexivity. Qed.

(** C06: false as stated.  A statement that creates a table is skipped for the letters in its text. *)
Theorem C06_creation_skipped_refuted :
  exists w parse1 m o out st,
    opt_skip_drop o = true /\ opt_dry_run o = false /\ opt_export o = false /\
    planned_operations w parse1 m o = Ok out /\ In st out /\ removes (s_eff st) = false /\
    exit_codes (run w parse1 m o) = [0%Z] /\ ~ In (s_text st) (sent (run w parse1 m o)).
Proof.
  exists (demo_world true (fun _ => true) true "a;b;DROPS"), demo_parse, Mysql, skip_opts.
  exists [verbatim (CreateTable "DROPS" (mkTable "DROPS" [] [] [] []))],
         (verbatim (CreateTable "DROPS" (mkTable "DROPS" [] [] [] []))).
  vm_compute. intuition (congruence || auto).
Qed.
Print Assumptions C06_creation_skipped_refuted.

(** What holds: a planned statement that removes nothing is executed if none of the strings the
    schemas supply to it contains the letters.  Missing: strings that do contain them. *)
Theorem C06_harmless_statements_are_executed_partial w parse1 m o out :
  opt_dry_run o = false -> opt_export o = false ->
  planned_operations w parse1 m o = Ok out ->
  exit_codes (run w parse1 m o) = [0%Z] ->
  forall st, In st out -> removes (s_eff st) = false ->
  (forall s, In s (operation_strings (s_eff st)) -> contains s "DROP" = false) ->
  In (Exec (s_text st) true) (run w parse1 m o).
Proof. exact (harmless_sent w parse1 m o out). Qed.
Print Assumptions C06_harmless_statements_are_executed_partial.

Theorem C06_harmless_statements_are_selected_partial m desired current out :
  plan m desired current = Ok out ->
  forall skip st, In st out -> removes (s_eff st) = false ->
  (forall s, In s (operation_strings (s_eff st)) -> contains s "DROP" = false) ->
  In (s_text st) (selected skip (map s_text out)) /\ line_for skip (s_text st) = (s_text st ++ ";" ++ nl)%string.
Proof. exact (harmless_selected m desired current out). Qed.
Print Assumptions C06_harmless_statements_are_selected_partial.

Example C06_example :
  plan Mysql (blog_desired "") (blog_current "") = Ok (plan_of Mysql "") /\
  forallb (fun st => removes (s_eff st) ||
             forallb (fun s => negb (contains s "DROP")) (operation_strings (s_eff st))) (plan_of Mysql "") = true /\
  length (selected true (map s_text (plan_of Mysql ""))) = 15.
Proof. vm_compute. repeat split; reflexivity. Qed.

(** C50: false as stated: on MySQL --skip-drop still sends statements that take a default, a
    NOT NULL or a part of a key away. *)
Theorem C50_default_lost_refuted : exists desired current out,
  plan Mysql desired current = Ok out /\ NoDup (created desired) /\ NoDup (created current) /\
  selected true (map s_text out) = ["ALTER TABLE `t` CHANGE COLUMN `a` `a` int"] /\
  created desired = ["t"] /\ map (fun t => map c_default (t_columns t)) (schema desired) = [[None]] /\
  map (fun t => map c_default (t_columns t)) (schema current) = [[Some (mkDefault (Some (int_value 1 "1")) "")]].
Proof.
  exists [CreateTable "CREATE TABLE t (a int)" (mkTable "t" [col "a" 0 "int"] [] [] [])].
  exists [CreateTable "CREATE TABLE t (a int DEFAULT 1)"
            (mkTable "t" [with_default (int_value 1 "1") (col "a" 0 "int")] [] [] [])].
  eexists. split; [vm_compute; reflexivity|]. repeat split; try (repeat constructor; simpl; tauto).
Qed.
Print Assumptions C50_default_lost_refuted.

(** An index whose definition changed is dropped and added again; only the second half is sent, and
    the database has an index of that name already. *)
Theorem C50_changed_index_refuted : exists desired current out,
  plan Mysql desired current = Ok out /\ NoDup (created desired) /\ NoDup (created current) /\
  selected true (map s_text out) = ["ALTER TABLE `t` ADD UNIQUE `i` (`a`)"] /\
  map (fun t => map i_name (t_indexes t)) (schema current) = [["i"]].
Proof.
  exists [CreateTable "CREATE TABLE t (a int, UNIQUE i (a))" (mkTable "t" [col "a" 0 "int"] [idx "i" true ["a"]] [] [])].
  exists [CreateTable "CREATE TABLE t (a int, KEY i (a))" (mkTable "t" [col "a" 0 "int"] [idx "i" false ["a"]] [] [])].
  eexists. split; [vm_compute; reflexivity|]. repeat split; try (repeat constructor; simpl; tauto).
Qed.
Print Assumptions C50_changed_index_refuted.
