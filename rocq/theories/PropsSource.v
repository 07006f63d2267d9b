(** Properties C94 (every definition in a plan is one of the file), C68, C71, C73 (columns and
    foreign keys in MySQL's words), C70 and C74 (differences that are noticed). *)
From Coq Require Import String Ascii List ZArith Bool.
From Verif Require Import GoStr Ast Generator SpecPlan SpecColumns SpecMysql SpecShown SpecShownMysql SpecWordsMysql SpecSource SpecNoticed
  DemoPlan DemoConverge DemoConvergePg DemoConvergeMs DemoWordsMysql SpecPostgres SpecMssql SpecShownMssql SpecConvergeMs DemoSource ProofDemo ProofSource ProofSaid ProofNoticed.
Import ListNotations.
Local Open Scope string_scope.
Local Open Scope list_scope.

(** ** C94: nothing is made up *)

(** Whatever the database and the dialect. *)
Theorem C94_definitions_come_from_the_file m desired current out :
  plan m desired current = Ok out -> Forall (fun st => asked_for desired current (s_eff st)) out.
Proof. exact (plan_asked m desired current out). Qed.
Print Assumptions C94_definitions_come_from_the_file.

Example C94_example :
  plan Mysql shop_desired (dump shop) = Ok (mysql_plan shop_desired shop) /\
  plan Postgres store_desired (pg_dump store) = Ok (pg_plan store_desired store) /\ length (pg_plan store_desired store) = 34 /\
  plan Mssql market_schema (ms_shown (mq_ideal market)) = Ok (ms_plan market_schema (mq_ideal market)).
Proof. split; [vm_compute; reflexivity|]. split; [vm_compute; reflexivity|]. split; [vm_compute; reflexivity|exact market_planned]. Qed.
(** What it rules out. *)
Example C94_denied :
  ~ asked_for shop_desired (dump shop) (EffAddColumn "users" (col "wages" 0 "int") PosNone) /\
  ~ asked_for shop_desired (dump shop) (EffAddIndex "users" (idx "by_wages" false ["wages"])) /\
  ~ asked_for shop_desired (dump shop) (EffVerbatim (CreateTable "CREATE TABLE wages (a int)" (mkTable "wages" [] [] [] []))).
Proof. exact shop_denied. Qed.

(** ** C73 and C68: columns are added in MySQL's words *)

(** The full statements speak of all databases and all types and are false, see PropsSchema.
    Where the words of SHOW CREATE TABLE suffice for the columns of the file ([sayable_columns]),
    an ADD COLUMN says the type, length, sign, values and default of that column of the file.
    AUTO_INCREMENT may come later. *)
Theorem C73_added_columns_have_their_words_partial desired current out st t c p :
  plan Mysql desired current = Ok out -> In st out -> s_eff st = EffAddColumn t c p ->
  my_name t = true -> sayable_columns t desired ->
  exists mc k auto, In (set_position k (my_ideal_column mc)) (columns_of t desired) /\ mc_name mc = c_name c /\ (auto = true -> mc_auto mc = true) /\
    same_words Mysql (s_text st) (spell (altering t ["ADD"; "COLUMN"] ++ shown_column (with_auto auto mc) ++ at_position p)).
Proof. exact (added_column_words desired current out st t c p). Qed.
Print Assumptions C73_added_columns_have_their_words_partial.

Theorem C68_added_columns_have_their_defaults_partial desired current out st t c p d :
  plan Mysql desired current = Ok out -> In st out -> s_eff st = EffAddColumn t c p ->
  my_name t = true -> sayable_columns t desired ->
  (forall mc k, In (set_position k (my_ideal_column mc)) (columns_of t desired) -> mc_name mc = c_name c -> mc_default mc = Some d) ->
  exists before after, same_words Mysql (s_text st)
    (spell (altering t ["ADD"; "COLUMN"] ++ [MName (c_name c); blank1] ++ before ++ [blank1; MWord "DEFAULT"; blank1] ++ shown_default_value d ++ after)).
Proof. exact (added_default_words desired current out st t c p d). Qed.
Print Assumptions C68_added_columns_have_their_defaults_partial.

(** A column with character set, collation and default. *)
Example C73_words_example :
  plan Mysql [declared club] [declared club_before] = Ok club_out /\ In name_added club_out /\
  (exists c, s_eff name_added = EffAddColumn "club" c (PosAfter "id") /\ c_name c = "name") /\
  my_name "club" = true /\ sayable_columns "club" [declared club] /\
  (forall mc k, In (set_position k (my_ideal_column mc)) (columns_of "club" [declared club]) -> mc_name mc = "name" -> mc_default mc = Some (MyText "no name")) /\
  s_text name_added = "ALTER TABLE `club` ADD COLUMN `name` varchar(40) CHARACTER SET utf8mb4 COLLATE utf8mb4_bin NOT NULL DEFAULT 'no name' AFTER `id`".
Proof. exact name_example. Qed.

(** ** C71: foreign keys *)

(** The full statement speaks of PostgreSQL and SQL Server too, where it is false (PropsSchema). *)
Theorem C71_added_foreign_keys_have_their_words_partial desired current out st t f :
  plan Mysql desired current = Ok out -> In st out -> s_eff st = EffAddForeignKey t f ->
  my_name t = true -> (forall f0, In f0 (table_fks_of t desired) -> exists mf, my_fk_ok mf = true /\ f0 = my_ideal_fk mf) ->
  exists mf, In (my_ideal_fk mf) (table_fks_of t desired) /\ mf_name mf = fk_constraint f /\
    same_words Mysql (s_text st) (spell (altering t ["ADD"] ++ shown_fk mf)).
Proof. exact (added_fk_words desired current out st t f). Qed.
Print Assumptions C71_added_foreign_keys_have_their_words_partial.

Example C71_words_example :
  plan Mysql [declared club] [declared club_before] = Ok club_out /\ In friend_added club_out /\
  (exists f, s_eff friend_added = EffAddForeignKey "club" f /\ fk_constraint f = "friend_of") /\ my_name "club" = true /\
  (forall f0, In f0 (table_fks_of "club" [declared club]) -> exists mf, my_fk_ok mf = true /\ f0 = my_ideal_fk mf).
Proof. exact friend_example. Qed.

(** ** C70: changed indexes *)

(** The full statement asks it of every property of an index; the method, prefix lengths and
    clustering are not compared (PropsSchema).  An index of the file with the name of one of the
    database that does not match it in columns, order, uniqueness, predicate or options is
    dropped and created as the file has it. *)
Theorem C70_changed_index_is_recreated_partial m desired current out t ct i ci :
  NoDup (created desired) -> NoDup (created current) -> plan m desired current = Ok out ->
  In t (tables_in desired) -> In ct (schema current) -> t_name ct = t_name t ->
  (In i (t_indexes t) /\ i_primary i = false) \/ In i (indexes_on (t_name t) desired) ->
  named i_name (i_name i) (t_indexes ct) = Some ci -> ~ index_matches ci i ->
  exists a b, effects (index_ops (t_name t)) out = a ++ drop_index_op m (i_name i) ++ [Add i] ++ b.
Proof. exact (changed_index_is_recreated m desired current out t ct i ci). Qed.
Print Assumptions C70_changed_index_is_recreated_partial.

(** ** C74: changed columns *)

(** The full statement asks it of every difference; comments, SQLite, types and NOT NULL on SQL
    Server are not compared (PropsSchema).  [differs] says which differences are noticed: the plan
    has an operation for the column. *)
Theorem C74_changed_column_is_noticed_partial m desired current out t ct c cc :
  NoDup (created desired) -> NoDup (created current) -> plan m desired current = Ok out ->
  In t (tables_in desired) -> In ct (schema current) -> t_name ct = t_name t ->
  named c_name (c_name c) (t_columns t) = Some c -> named c_name (c_name c) (t_columns ct) = Some cc -> differs m ct cc c ->
  exists o, In (c_name c, o) (effects (column_ops (t_name t)) out).
Proof. exact (changed_column_is_noticed m desired current out t ct c cc). Qed.
Print Assumptions C74_changed_column_is_noticed_partial.

(** The users of a shop: an index becomes unique, a column longer. *)
Example C70_noticed_example :
  NoDup (created changed_users) /\ NoDup (created old_users) /\ (exists out, plan Mysql changed_users old_users = Ok out) /\
  In new_users_table (tables_in changed_users) /\ In old_users_table (schema old_users) /\
  In (idx "by_name" true ["name"]) (t_indexes new_users_table) /\
  named i_name "by_name" (t_indexes old_users_table) = Some (idx "by_name" false ["name"]) /\ ~ index_matches (idx "by_name" false ["name"]) (idx "by_name" true ["name"]) /\
  named c_name "name" (t_columns new_users_table) = Some (sized 80 (col "name" 1 "varchar")) /\
  named c_name "name" (t_columns old_users_table) = Some (sized 40 (col "name" 1 "varchar")) /\
  differs Mysql old_users_table (sized 40 (col "name" 1 "varchar")) (sized 80 (col "name" 1 "varchar")).
Proof. exact users_example. Qed.
